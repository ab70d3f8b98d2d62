(** * Hex output in every locale (C65). *)
From Coq Require Import ZArith Lia.
From Verif Require Import Base Hasher HasherSpec Library Stream.
Local Open Scope N_scope.

(** The characters of one byte. *)
Definition ones (l : locale) : bool := match lgroup l with (1 :: _)%Z => true | _ => false end.
Definition shown (l : locale) (b : N) : list N :=
  if ones l && (16 <=? b) then [nibble_char (b / 16); lsep l; nibble_char (b mod 16)]
  else [nibble_char (b / 16); nibble_char (b mod 16)].

Lemma nibble_hex d : d < 16 -> hex_char d = nibble_char d.
Proof.
  intros H. assert (I : In d (map N.of_nat (seq 0 16))).
  { apply in_map_iff. exists (N.to_nat d). split; [lia|]. apply in_seq. lia. }
  clear H. assert (A : Forall (fun d => hex_char d = nibble_char d) (map N.of_nat (seq 0 16)))
    by (repeat (constructor; [reflexivity|]); constructor).
  exact (proj1 (Forall_forall _ _) A d I).
Qed.

Lemma groups1 fuel g sep x : num_groups fuel g sep [x] = [x].
Proof.
  destruct fuel; [reflexivity|]. destruct g as [|z g]; [reflexivity|]. cbn [num_groups].
  destruct (z <=? 0)%Z eqn:E; [reflexivity|]. cbn [orb]. destruct (z =? 127)%Z; [reflexivity|].
  destruct (Nat.leb_spec (length [x]) (Z.to_nat z)); [reflexivity|]. cbn [length] in *. lia.
Qed.
Lemma groups2 l x y : num_groups 2 (lgroup l) (lsep l) [x; y] = if ones l then [x; lsep l; y] else [x; y].
Proof.
  unfold ones. destruct (lgroup l) as [|z g]; [reflexivity|]. cbn [num_groups].
  destruct (Z.leb_spec z 0); [destruct z; try reflexivity; lia|]. cbn [orb].
  destruct (Z.eqb_spec z 127); [subst; reflexivity|].
  destruct (Nat.leb_spec (length [x; y]) (Z.to_nat z)) as [L|L]; cbn [length] in L.
  - destruct z as [|p|p]; try reflexivity. destruct p; try reflexivity. lia.
  - assert (z = 1%Z) by lia. subst z. change (Z.to_nat 1) with 1%nat. cbn [firstn skipn app].
    destruct g as [|z g].
    + cbn [num_groups]. reflexivity.
    + f_equal. f_equal. exact (groups1 1 (z :: g) _ _).
Qed.

Lemma digits_small b : b < 16 -> num_digits 16 10 b [] = [hex_char b].
Proof. intros H. cbn [num_digits]. destruct (N.ltb_spec b 16); [reflexivity|lia]. Qed.
Lemma digits_big b : 16 <= b -> b < 256 -> num_digits 16 10 b [] = [hex_char (b / 16); hex_char (b mod 16)].
Proof.
  intros H H2. cbn [num_digits]. destruct (N.ltb_spec b 16); [lia|].
  destruct (N.ltb_spec (b / 16) 16) as [|A]; [reflexivity|].
  assert (b / 16 < 16) by (apply N.div_lt_upper_bound; lia). lia.
Qed.

Definition hexos (l : locale) (buf : list N) : ostr := mkos l Hex 48 0 buf.
Lemma iter_byte l buf b : b < 256 -> os_iter (hexos l buf) b = hexos l (buf ++ shown l b).
Proof.
  intros H. unfold os_iter, os_fixer, os_uint, os_setw, hexos. cbn [obase oloc ofill owidth obuf].
  unfold shown. destruct (N.leb_spec 16 b) as [B|B].
  - rewrite digits_big by assumption. cbn [rev app length]. rewrite groups2.
    assert (b mod 16 < 16) by (apply N.mod_lt; lia). assert (b / 16 < 16) by (apply N.div_lt_upper_bound; lia).
    rewrite !nibble_hex by assumption.
    destruct (ones l); cbn [andb rev app length os_field oloc obase ofill owidth obuf Nat.sub repeat];
      unfold os_field; cbn [oloc obase ofill owidth obuf length Nat.sub repeat app]; rewrite app_nil_r; reflexivity.
  - rewrite digits_small by assumption. cbn [rev app length]. rewrite groups1. rewrite Bool.andb_false_r.
    unfold os_field. cbn [oloc obase ofill owidth obuf rev length Nat.sub repeat app]. rewrite app_nil_r.
    rewrite (N.div_small b 16), (N.mod_small b 16) by assumption. rewrite nibble_hex by assumption. reflexivity.
Qed.
Lemma iter_bytes l bytes : is_bytes bytes -> forall buf,
  fold_left os_iter bytes (hexos l buf) = hexos l (buf ++ flat_map (shown l) bytes).
Proof.
  induction 1 as [|b bytes Hb _ IH]; intros buf; cbn [fold_left flat_map].
  - rewrite app_nil_r. reflexivity.
  - rewrite iter_byte by assumption. rewrite IH, app_assoc. reflexivity.
Qed.
Lemma stream_shown l bytes : is_bytes bytes -> hex_stream l bytes = flat_map (shown l) bytes.
Proof. intros H. unfold hex_stream. change (os_hex _) with (hexos l []). rewrite iter_bytes by assumption. reflexivity. Qed.

Lemma stream_hex l bytes : ones l = false -> is_bytes bytes -> hex_stream l bytes = spec_hex bytes.
Proof.
  intros O H. rewrite stream_shown by assumption. unfold spec_hex.
  apply flat_map_ext. intros b. unfold shown. rewrite O. reflexivity.
Qed.

Lemma shown_length l bytes : ones l = true ->
  length (flat_map (shown l) bytes) = (2 * length bytes + length (filter (fun b => 16 <=? b)%N bytes))%nat.
Proof.
  intros O. induction bytes as [|b bytes IH]; [reflexivity|]. cbn [flat_map filter length]. rewrite app_length, IH.
  unfold shown. rewrite O. cbn [andb]. destruct (16 <=? b); cbn [length]; lia.
Qed.
Lemma spec_hex_len bytes : length (spec_hex bytes) = (2 * length bytes)%nat.
Proof. induction bytes as [|b bytes IH]; [reflexivity|]. unfold spec_hex in *. cbn [flat_map]. rewrite app_length, IH. cbn [length]. lia. Qed.
Lemma stream_exact l bytes : is_bytes bytes ->
  (hex_stream l bytes = spec_hex bytes <-> ones l = false \/ Forall (fun b => b < 16) bytes).
Proof.
  intros H. rewrite stream_shown by assumption. split.
  - intros E. destruct (ones l) eqn:O; [right|left; reflexivity].
    pose proof (f_equal (@length N) E) as L. rewrite shown_length, spec_hex_len in L by assumption.
    assert (length (filter (fun b => 16 <=? b)%N bytes) = 0)%nat as F by lia. clear - F.
    induction bytes as [|b bytes IH]; [constructor|]. cbn [filter] in F.
    destruct (N.leb_spec 16 b); [cbn [length] in F; lia|]. constructor; auto.
  - intros [O|F].
    + rewrite <- stream_shown by assumption. apply stream_hex; assumption.
    + unfold spec_hex. clear H. induction F as [|b bytes Hb _ IH]; [reflexivity|]. cbn [flat_map]. rewrite IH. f_equal.
      unfold shown. destruct (N.leb_spec 16 b); [lia|]. rewrite Bool.andb_false_r. reflexivity.
Qed.

(** ** The API calls *)
Lemma ones_hd l : ones l = true <-> hd 0%Z (lgroup l) = 1%Z.
Proof.
  unfold ones. destruct (lgroup l) as [|z ?]; [split; discriminate|]. cbn [hd].
  destruct z as [|p|p]; try (split; discriminate). destruct p; split; congruence.
Qed.

Section Api.
  Context {P : hash_provider} (T : htype P).
  Lemma digest_iter_in l g pre d : after T g pre [HDigestIter] = Ok [OBytes d] -> hexdigest_in l T g pre = Ok (hex_stream l d).
  Proof.
    unfold after, hexdigest_in. destruct (ht_new T g) as [s| |]; cbn [bind]; try discriminate.
    destruct (hash_run P s pre) as [[s' o]| |]; cbn [bind]; try discriminate.
    cbn [hash_run hash_step]. destruct (digest_iter P s') as [r| |]; cbn [bind]; try discriminate.
    intros E. injection E as ->. reflexivity.
  Qed.
  Lemma hexdigest_grouped l g pre d : hd 0%Z (lgroup l) = 1%Z -> after T g pre [HDigestIter] = Ok [OBytes d] -> is_bytes d ->
    hexdigest_in l T g pre =
      Ok (flat_map (fun b => if b <? 16 then spec_hex [b]
                             else [nibble_char (b / 16); lsep l; nibble_char (b mod 16)]) d).
  Proof.
    intros O E B. rewrite (digest_iter_in l g pre d E), stream_shown by assumption. f_equal.
    apply flat_map_ext. intros b. unfold shown. rewrite (proj2 (ones_hd l) O). cbn [andb].
    rewrite N.leb_antisym. destruct (b <? 16); reflexivity.
  Qed.
  Lemma hexdigest_exact l g pre d : after T g pre [HDigestIter] = Ok [OBytes d] -> is_bytes d ->
    (hexdigest_in l T g pre = Ok (spec_hex d) <-> hd 0%Z (lgroup l) <> 1%Z \/ Forall (fun b => b < 16) d).
  Proof.
    intros E B. rewrite (digest_iter_in l g pre d E). rewrite <- ones_hd, Bool.not_true_iff_false, <- (stream_exact l d B).
    split; [intros H; injection H; auto|intros ->; reflexivity].
  Qed.
End Api.
Lemma squeeze_iter_in {P} (T : xtype P) l g pre n b : xafter T g pre [XSqueezeIter n] = Ok [OBytes b] ->
  hexsqueeze_in l T g pre n = Ok (hex_stream l b).
Proof.
  unfold xafter, hexsqueeze_in. destruct (xt_new T g) as [s| |]; cbn [bind]; try discriminate.
  destruct (xof_run P s pre) as [[s' o]| |]; cbn [bind]; try discriminate.
  cbn [xof_run xof_step]. destruct (squeeze_iter P s' n) as [[s2 r]| |]; cbn [bind]; try discriminate.
  intros E. injection E as ->. reflexivity.
Qed.
