(** * Checked versions of the compression functions of BLAKE and BLAKE2.

    The definitions [k…] mirror those of Blake.v and Blake2.v, with the operations of
    Checked.v; the lines of the code are those cited there. *)
From Verif Require Import Base Checked Lemmas MdState Blake Blake2 ConstBlake ConstBlake2.

(** ** BLAKE *)

Definition kbl_C (w : N) (t : K) : K := if w =? 64 then ktabw blake_c512 t else ktabw blake_c t.
Definition kbl_swap (w : N) (x : K) : K := if w =? 64 then kbyteswap64 x else kbyteswap32 x.

(** blake_provider.hpp:22-48 *)
Definition kbl_G (w : N) (r i : nat) (ia ib ic id : nat) (M v : list K) : list K :=
  let '(r1, r2, r3, r4) := bl_rots w in
  let S := ktab2 (r mod 10) in
  let a := kget ia v in
  let b := kget ib v in
  let c := kget ic v in
  let d := kget id v in
  let a := kadd w (kadd w a b) (kxor (kgetw M (S (2 * i)%nat blake_S)) (kbl_C w (S (2 * i + 1)%nat blake_S))) in
  let d := krotr w (kxor d a) (Ok r1) in
  let c := kadd w c d in
  let b := krotr w (kxor b c) (Ok r2) in
  let a := kadd w (kadd w a b) (kxor (kgetw M (S (2 * i + 1)%nat blake_S)) (kbl_C w (S (2 * i)%nat blake_S))) in
  let d := krotr w (kxor d a) (Ok r3) in
  let c := kadd w c d in
  let b := krotr w (kxor b c) (Ok r4) in
  kupd id d (kupd ic c (kupd ib b (kupd ia a v))).

(** blake_provider.hpp:50-61 *)
Definition kbl_round (w : N) (M : list K) (v : list K) (r : nat) : list K :=
  let v := kbl_G w r 0 0 4 8 12 M v in
  let v := kbl_G w r 1 1 5 9 13 M v in
  let v := kbl_G w r 2 2 6 10 14 M v in
  let v := kbl_G w r 3 3 7 11 15 M v in
  let v := kbl_G w r 4 0 5 10 15 M v in
  let v := kbl_G w r 5 1 6 11 12 M v in
  let v := kbl_G w r 6 2 7 8 13 M v in
  kbl_G w r 7 3 4 9 14 M v.

(** blake_provider.hpp:81-133; totalbytes is a uint64_t. *)
Definition kbl_block (w : N) (padding : bool) (tb : N) (H : list K) (data : list N) : list K :=
  let M := map (kbl_swap w) (kl (le_words (bl_wb w) 16 data)) in
  let t0 := if padding then Ok 0 else ktrunc w (Ok tb) in
  let t1 := if padding then Ok 0 else if w =? 64 then Ok 0 else ktrunc w (kshr 64 (Ok tb) (Ok 32)) in
  let v := firstn 8 H ++
    [kxor (kget 8 H) (kbl_C w (Ok 0)); kxor (kget 9 H) (kbl_C w (Ok 1));
     kxor (kget 10 H) (kbl_C w (Ok 2)); kxor (kget 11 H) (kbl_C w (Ok 3));
     kxor t0 (kbl_C w (Ok 4)); kxor t0 (kbl_C w (Ok 5)); kxor t1 (kbl_C w (Ok 6)); kxor t1 (kbl_C w (Ok 7))] in
  let v := fold_left (kbl_round w M) (seq 0 (if w =? 64 then 16 else 14)) v in
  map (fun i => kxor (kxor (kxor (kget i H) (kget (8 + i mod 4) H)) (kget i v)) (kget (i + 8) v)) (seq 0 8)
  ++ skipn 8 H.

Lemma blake_S_ok r j : (r < 10)%nat -> (j < 16)%nat ->
  ktab2 r j blake_S = Ok (nthN j (nth r blake_S [])) /\ nthN j (nth r blake_S []) < 16.
Proof.
  intros Hr Hj.
  assert (E : forallb (fun r => (length (nth r blake_S []) =? 16)%nat &&
    forallb (fun j => nthN j (nth r blake_S []) <? 16) (seq 0 16)) (seq 0 10) = true) by (vm_compute; reflexivity).
  rewrite forallb_forall in E. specialize (E r). rewrite andb_true_iff, Nat.eqb_eq in E.
  destruct E as [L E]; [apply in_seq; lia|].
  rewrite forallb_forall in E. specialize (E j). rewrite N.ltb_lt in E.
  split; [apply ktab2_ok; [exact Hr | lia] | apply E, in_seq; lia].
Qed.

Lemma kbl_C_ok w t : t < 16 -> kbl_C w (Ok t) = Ok (bl_C w t).
Proof.
  intros H. unfold kbl_C, bl_C.
  destruct (w =? 64); apply ktabw_ok.
  - change (length blake_c512) with 16%nat. lia.
  - change (length blake_c) with 16%nat. lia.
Qed.

Lemma krotr_comp w x n : (w <=? 64) && (0 <? n) && (n <? w) = true -> krotr w (Ok x) (Ok n) = Ok (rotr w x n).
Proof. rewrite !andb_true_iff, N.leb_le, !N.ltb_lt. intros [[A B] C]. now apply krotr_ok. Qed.

Lemma kbl_G_ok w r i ia ib ic id M v : w = 32 \/ w = 64 ->
  (i < 8)%nat -> (ia < 16)%nat -> (ib < 16)%nat -> (ic < 16)%nat -> (id < 16)%nat ->
  length M = 16%nat -> length v = 16%nat ->
  kbl_G w r i ia ib ic id (kl M) (kl v) = kl (bl_G w r i ia ib ic id M v)
  /\ length (bl_G w r i ia ib ic id M v) = 16%nat.
Proof.
  intros Hw Hi Ha Hb Hc Hd HM Hv. unfold kbl_G, bl_G.
  assert (Hr : (r mod 10 < 10)%nat) by now apply Nat.mod_upper_bound.
  destruct (blake_S_ok (r mod 10) (2 * i) Hr) as [E1 B1]; [lia|].
  destruct (blake_S_ok (r mod 10) (2 * i + 1) Hr) as [E2 B2]; [lia|].
  cbv zeta. rewrite E1, E2.
  set (s1 := nthN (2 * i) (nth (r mod 10) blake_S [])) in *.
  set (s2 := nthN (2 * i + 1) (nth (r mod 10) blake_S [])) in *.
  rewrite !kbl_C_ok by assumption.
  rewrite !kgetw_ok by lia. rewrite !kget_ok by lia.
  assert (R : exists r1 r2 r3 r4, bl_rots w = (r1, r2, r3, r4)
    /\ forall x n, In n [r1; r2; r3; r4] -> krotr w (Ok x) (Ok n) = Ok (rotr w x n)).
  { destruct Hw; subst w; unfold bl_rots; cbn [N.eqb Pos.eqb]; eexists _, _, _, _;
      (split; [reflexivity|]); intros x n Hn; apply krotr_comp; cbn [In] in Hn;
      decompose [or] Hn; subst; reflexivity || contradiction. }
  destruct R as (r1 & r2 & r3 & r4 & -> & R).
  cbn [kxor kadd bind].
  repeat (rewrite R by (cbn [In]; tauto); cbn [kxor kadd bind]).
  rewrite !kupd_ok by (rewrite ?upd_len; lia).
  rewrite !upd_len. split; [reflexivity | exact Hv].
Qed.

Lemma kbl_round_ok w r M v : w = 32 \/ w = 64 -> length M = 16%nat -> length v = 16%nat ->
  kbl_round w (kl M) (kl v) r = kl (bl_round w M v r) /\ length (bl_round w M v r) = 16%nat.
Proof.
  intros Hw HM Hv. unfold kbl_round, bl_round. cbv zeta.
  repeat match goal with
  | |- context [kbl_G w r ?i ?a ?b ?c ?d (kl M) (kl ?v)] =>
      destruct (kbl_G_ok w r i a b c d M v) as [-> ?]; [exact Hw | lia | lia | lia | lia | lia | exact HM | assumption |];
      set (bl_G w r i a b c d M v) in *
  end.
  split; [reflexivity | assumption].
Qed.

Lemma kbl_block_ok w padding tb H data : w = 32 \/ w = 64 -> length H = 12%nat ->
  kbl_block w padding tb (kl H) data = kl (bl_block w padding tb H data).
Proof.
  intros Hw HH. unfold kbl_block, bl_block.
  rewrite (map_kl (kbl_swap w) (bl_swap w)) by (intros x; unfold kbl_swap, bl_swap; destruct (w =? 64); reflexivity).
  assert (HM : length (map (bl_swap w) (le_words (bl_wb w) 16 data)) = 16%nat)
    by (rewrite map_length; apply le_words_length).
  set (M := map (bl_swap w) (le_words (bl_wb w) 16 data)) in *. clearbody M. cbv zeta.
  rewrite !kbl_C_ok by reflexivity. rewrite !(kget_ok _ H) by (rewrite HH; lia).
  replace (if padding then Ok 0 else ktrunc w (Ok tb)) with (Ok (if padding then 0 else trunc w tb))
    by (destruct padding; reflexivity).
  replace (if padding then Ok 0 else if w =? 64 then Ok 0 else ktrunc w (kshr 64 (Ok tb) (Ok 32)))
    with (Ok (if padding then 0 else if w =? 64 then 0 else trunc w (N.shiftr tb 32)))
    by (destruct padding, (w =? 64); reflexivity).
  set (t0 := if padding then 0 else trunc w tb). set (t1 := if padding then 0 else if w =? 64 then 0 else _).
  cbn [kxor bind].
  rewrite kl_firstn, kl_skipn.
  match goal with |- context [fold_left (bl_round w M) _ ?x] => set (v0 := x) end.
  match goal with |- context [fold_left (kbl_round w (kl M)) _ ?x] => replace x with (kl v0)
    by (unfold v0; rewrite kl_app; reflexivity) end.
  assert (L0 : length v0 = 16%nat) by (unfold v0; rewrite app_length, firstn_length, HH; reflexivity).
  clearbody v0.
  destruct (fold_k nat _ _ (fun v => length v = 16%nat) kl (bl_round w M) (kbl_round w (kl M))
    (seq 0 (if w =? 64 then 16 else 14)) v0) as [-> L].
  - intros s i _ Hs. now apply kbl_round_ok.
  - exact L0.
  - set (v := fold_left (bl_round w M) _ v0) in *. clearbody v.
    rewrite kl_app. f_equal. apply map_ok. intros i Hi. apply in_seq in Hi.
    assert (i mod 4 < 4)%nat by now apply Nat.mod_upper_bound.
    rewrite !kget_ok by lia. reflexivity.
Qed.

(** ** BLAKE2 *)

(** blake2_provider.hpp:23-45 *)
Definition kb2_G (w : N) (r i : nat) (ia ib ic id : nat) (M v : list K) : list K :=
  let '(r1, r2, r3, r4) := b2_rots w in
  let S := ktab2 r in
  let a := kget ia v in
  let b := kget ib v in
  let c := kget ic v in
  let d := kget id v in
  let a := kadd w (kadd w a b) (kgetw M (S (2 * i)%nat blake2_S)) in
  let d := krotr w (kxor d a) (Ok r1) in
  let c := kadd w c d in
  let b := krotr w (kxor b c) (Ok r2) in
  let a := kadd w (kadd w a b) (kgetw M (S (2 * i + 1)%nat blake2_S)) in
  let d := krotr w (kxor d a) (Ok r3) in
  let c := kadd w c d in
  let b := krotr w (kxor b c) (Ok r4) in
  kupd id d (kupd ic c (kupd ib b (kupd ia a v))).

(** blake2_provider.hpp:47-58 *)
Definition kb2_round (w : N) (M : list K) (v : list K) (r : nat) : list K :=
  let v := kb2_G w r 0 0 4 8 12 M v in
  let v := kb2_G w r 1 1 5 9 13 M v in
  let v := kb2_G w r 2 2 6 10 14 M v in
  let v := kb2_G w r 3 3 7 11 15 M v in
  let v := kb2_G w r 4 0 5 10 15 M v in
  let v := kb2_G w r 5 1 6 11 12 M v in
  let v := kb2_G w r 6 2 7 8 13 M v in
  kb2_G w r 7 3 4 9 14 M v.

(** blake2_provider.hpp:319-370; totalbytes is a uint64_t. *)
Definition kb2_block (w : N) (tb : N) (last lastn : bool) (H : list K) (data : list N) : list K :=
  let M := kl (le_words (b2_wb w) 16 data) in
  let IV := b2_IV w in
  let t0 := ktrunc w (Ok tb) in
  let t1 := if w =? 64 then Ok 0 else ktrunc w (kshr 64 (Ok tb) (Ok 32)) in
  let f0 := Ok (if last then N.ones w else 0) in
  let f1 := Ok (if last && lastn then N.ones w else 0) in
  let v := H ++ [ktab 0 IV; ktab 1 IV; ktab 2 IV; ktab 3 IV;
                 kxor t0 (ktab 4 IV); kxor t1 (ktab 5 IV);
                 kxor f0 (ktab 6 IV); kxor f1 (ktab 7 IV)] in
  let v := fold_left (kb2_round w M) (seq 0 (if w =? 64 then 12 else 10)) v in
  map (fun i => kxor (kxor (kget i H) (kget i v)) (kget (i + 8) v)) (seq 0 8).

Lemma blake2_S_ok r j : (r < 12)%nat -> (j < 16)%nat ->
  ktab2 r j blake2_S = Ok (nthN j (nth r blake2_S [])) /\ nthN j (nth r blake2_S []) < 16.
Proof.
  intros Hr Hj.
  assert (E : forallb (fun r => (length (nth r blake2_S []) =? 16)%nat &&
    forallb (fun j => nthN j (nth r blake2_S []) <? 16) (seq 0 16)) (seq 0 12) = true) by (vm_compute; reflexivity).
  rewrite forallb_forall in E. specialize (E r). rewrite andb_true_iff, Nat.eqb_eq in E.
  destruct E as [L E]; [apply in_seq; lia|].
  rewrite forallb_forall in E. specialize (E j). rewrite N.ltb_lt in E.
  split; [apply ktab2_ok; [exact Hr | lia] | apply E, in_seq; lia].
Qed.

Lemma kb2_G_ok w r i ia ib ic id M v : w = 32 \/ w = 64 -> (r < 12)%nat ->
  (i < 8)%nat -> (ia < 16)%nat -> (ib < 16)%nat -> (ic < 16)%nat -> (id < 16)%nat ->
  length M = 16%nat -> length v = 16%nat ->
  kb2_G w r i ia ib ic id (kl M) (kl v) = kl (b2_G w r i ia ib ic id M v)
  /\ length (b2_G w r i ia ib ic id M v) = 16%nat.
Proof.
  intros Hw Hr Hi Ha Hb Hc Hd HM Hv. unfold kb2_G, b2_G.
  destruct (blake2_S_ok r (2 * i) Hr) as [E1 B1]; [lia|].
  destruct (blake2_S_ok r (2 * i + 1) Hr) as [E2 B2]; [lia|].
  cbv zeta. rewrite E1, E2.
  set (s1 := nthN (2 * i) (nth r blake2_S [])) in *.
  set (s2 := nthN (2 * i + 1) (nth r blake2_S [])) in *.
  rewrite !kgetw_ok by lia. rewrite !kget_ok by lia.
  assert (R : exists r1 r2 r3 r4, b2_rots w = (r1, r2, r3, r4)
    /\ forall x n, In n [r1; r2; r3; r4] -> krotr w (Ok x) (Ok n) = Ok (rotr w x n)).
  { destruct Hw; subst w; unfold b2_rots; cbn [N.eqb Pos.eqb]; eexists _, _, _, _;
      (split; [reflexivity|]); intros x n Hn; apply krotr_comp; cbn [In] in Hn;
      decompose [or] Hn; subst; reflexivity || contradiction. }
  destruct R as (r1 & r2 & r3 & r4 & -> & R).
  cbn [kxor kadd bind].
  repeat (rewrite R by (cbn [In]; tauto); cbn [kxor kadd bind]).
  rewrite !kupd_ok by (rewrite ?upd_len; lia).
  rewrite !upd_len. split; [reflexivity | exact Hv].
Qed.

Lemma kb2_round_ok w r M v : w = 32 \/ w = 64 -> (r < 12)%nat -> length M = 16%nat -> length v = 16%nat ->
  kb2_round w (kl M) (kl v) r = kl (b2_round w M v r) /\ length (b2_round w M v r) = 16%nat.
Proof.
  intros Hw Hr HM Hv. unfold kb2_round, b2_round. cbv zeta.
  repeat match goal with
  | |- context [kb2_G w r ?i ?a ?b ?c ?d (kl M) (kl ?v)] =>
      destruct (kb2_G_ok w r i a b c d M v) as [-> ?];
        [exact Hw | exact Hr | lia | lia | lia | lia | lia | exact HM | assumption |];
      set (b2_G w r i a b c d M v) in *
  end.
  split; [reflexivity | assumption].
Qed.

Lemma kb2_block_ok w tb last lastn H data : w = 32 \/ w = 64 -> length H = 8%nat ->
  kb2_block w tb last lastn (kl H) data = kl (b2_block w tb last lastn H data).
Proof.
  intros Hw HH. unfold kb2_block, b2_block.
  assert (HM : length (le_words (b2_wb w) 16 data) = 16%nat) by apply le_words_length.
  set (M := le_words (b2_wb w) 16 data) in *. clearbody M. cbv zeta.
  assert (HI : length (b2_IV w) = 8%nat) by (destruct Hw; subst w; reflexivity).
  rewrite !ktab_ok by (rewrite HI; lia).
  replace (if w =? 64 then Ok 0 else ktrunc w (kshr 64 (Ok tb) (Ok 32)))
    with (Ok (if w =? 64 then 0 else trunc w (N.shiftr tb 32))) by (destruct (w =? 64); reflexivity).
  set (t1 := if w =? 64 then 0 else _).
  cbn [kxor ktrunc bind].
  match goal with |- context [fold_left (b2_round w M) _ ?x] => set (v0 := x) end.
  match goal with |- context [fold_left (kb2_round w (kl M)) _ ?x] => replace x with (kl v0)
    by (unfold v0; rewrite kl_app; reflexivity) end.
  assert (L0 : length v0 = 16%nat) by (unfold v0; rewrite app_length, HH; reflexivity).
  clearbody v0.
  destruct (fold_k nat _ _ (fun v => length v = 16%nat) kl (b2_round w M) (kb2_round w (kl M))
    (seq 0 (if w =? 64 then 12 else 10)) v0) as [-> L].
  - intros s i Hi Hs. apply kb2_round_ok; try assumption. apply in_seq in Hi.
    destruct Hw; subst w; cbn [N.eqb Pos.eqb] in Hi; lia.
  - exact L0.
  - set (v := fold_left (b2_round w M) _ v0) in *. clearbody v.
    apply map_ok. intros i Hi. apply in_seq in Hi.
    rewrite !kget_ok by lia. reflexivity.
Qed.
