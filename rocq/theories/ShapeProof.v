(** * Proofs of C62. *)
From Verif Require Import Base Hasher Library LibraryTypes HasherSpec LibraryAny LibraryMore AnyCalls ShapeSpec.
From Verif Require Import HasherProof SplitAny AnyProof TwoPhase.
From Verif Require Import PropertiesAny PropertiesLost PropertiesSplit.

(** Validity of a parameter depends on the length of its value only. *)
Lemma blake_accepts_length hs q v v' : length v = length v' -> blake_accepts hs q v = blake_accepts hs q v'.
Proof. intros E. unfold blake_accepts. rewrite E. reflexivity. Qed.
Lemma b2_accepts_length w q v v' : length v = length v' -> b2_accepts w q v = b2_accepts w q v'.
Proof. intros E. unfold b2_accepts. rewrite E. reflexivity. Qed.
Lemma echo_accepts_length q v v' : length v = length v' -> echo_accepts q v = echo_accepts q v'.
Proof. intros E. unfold echo_accepts. rewrite E. reflexivity. Qed.
Lemma accepts_length P (T : htype P) : library T -> forall q v, ht_accepts T q v = ht_accepts T q (repeat 0 (length v)).
Proof.
  intros H q v. assert (L : length v = length (repeat 0 (length v))) by (symmetry; apply repeat_length).
  destruct H; first [exact (blake_accepts_length hs q v _ L) | exact (b2_accepts_length _ q v _ L)
    | exact (echo_accepts_length q v _ L) | reflexivity].
Qed.
Lemma xaccepts_length P (T : xtype P) : xlibrary T -> forall q v, xt_accepts T q v = xt_accepts T q (repeat 0 (length v)).
Proof.
  intros H q v. assert (L : length v = length (repeat 0 (length v))) by (symmetry; apply repeat_length).
  destruct H; first [exact (b2_accepts_length _ q v _ L) | reflexivity
   | match goal with |- xt_accepts ?T _ _ = _ => unfold T end; cbn [xt_accepts]; rewrite <- L; reflexivity].
Qed.

Section Hash.
Variables (P : hash_provider) (T : htype P).
Hypothesis HT : library T.
Let acc q n := ht_accepts T q (repeat 0 n).

Lemma after_nil g pre : ht_mem_ok T g -> hany pre -> after T g pre [] = Ok [].
Proof. intros Hg Hp. destruct (C08_any_history P T HT g pre [] Hg Hp) as ([|x r] & E & L); [constructor|exact E|discriminate L]. Qed.
Lemma after_one g pre o post x r : after T g pre (o :: post) = Ok (x :: r) -> after T g pre [o] = Ok [x].
Proof.
  unfold after. destruct (ht_new T g) as [s| |]; cbn [bind]; try discriminate.
  destruct (hash_run P s pre) as [[t l]| |]; cbn [bind hash_run]; try discriminate.
  destruct (hash_step P t o) as [[u y]| |]; cbn [bind]; try discriminate.
  destruct (hash_run P u post) as [[w ys]| |]; cbn [bind]; try discriminate. intros E. injection E as -> _. reflexivity.
Qed.
Lemma one_shape g pre o x : ht_mem_ok T g -> hany pre -> any_hop o -> after T g pre [o] = Ok [x] ->
  out_shape x = hash_shape acc (ht_size T) o.
Proof.
  intros Hg Hp Ho E. destruct o as [[f d|b|q v]| | |]; cbn [hash_shape base_shape].
  - unfold after in E. destruct (ht_new T g) as [s| |]; cbn [bind] in E; try discriminate.
    destruct (hash_run P s pre) as [[t l]| |]; cbn [bind hash_run hash_step base_step] in E; try discriminate.
    destruct (absorb P f t d); cbn [bind] in E; try discriminate. injection E as <-. reflexivity.
  - unfold after in E. destruct (ht_new T g) as [s| |]; cbn [bind] in E; try discriminate.
    destruct (hash_run P s pre) as [[t l]| |]; cbn [bind hash_run hash_step base_step] in E; try discriminate.
    destruct (reset P b t); cbn [bind] in E; try discriminate. injection E as <-. reflexivity.
  - destruct (C38_any_history P T HT g pre q v Hg Hp Ho) as [E' _]. rewrite E' in E. injection E as <-.
    unfold acc. rewrite <- (accepts_length P T HT). destruct (ht_accepts T q v); reflexivity.
  - destruct (C06_any_history P T HT g pre Hg Hp) as (d & D1 & _ & D3). rewrite D3 in E. injection E as <-.
    destruct (length buf <? ht_size T)%nat eqn:L; [reflexivity|]. cbn [out_shape].
    apply Nat.ltb_ge in L. rewrite app_length, skipn_length, D1. f_equal. lia.
  - destruct (C06_any_history P T HT g pre Hg Hp) as (d & D1 & D2 & _). rewrite D2 in E. injection E as <-.
    cbn. rewrite D1. reflexivity.
  - destruct (C07_any_history P T HT g pre Hg Hp) as (d & h & _ & D2 & _ & _ & D5 & _). rewrite D2 in E. injection E as <-.
    cbn [out_shape]. rewrite D5. reflexivity.
Qed.
Lemma all_shapes g post : forall pre, ht_mem_ok T g -> hany pre -> hany post ->
  exists r, after T g pre post = Ok r /\ map out_shape r = map (hash_shape acc (ht_size T)) post.
Proof.
  induction post as [|o post IH]; intros pre Hg Hp Hq.
  - exists []. split; [apply after_nil; assumption|reflexivity].
  - destruct (C08_any_history P T HT g pre (o :: post) Hg Hp Hq) as ([|x r] & E & L); [discriminate L|].
    inversion_clear Hq. destruct (IH (pre ++ [o]) Hg) as (r' & E' & S'); [apply Forall_app; split; [assumption|repeat constructor; assumption]|assumption|].
    rewrite after_move, E in E'. cbn [bind tl] in E'. injection E' as <-.
    exists (x :: r). split; [exact E|]. cbn [map]. f_equal; [|exact S'].
    exact (one_shape g pre o x Hg Hp H (after_one g pre o post x r E)).
Qed.
End Hash.

Section Xof.
Variables (P : xof_provider) (T : xtype P).
Hypothesis HT : xlibrary T.
Let acc q n := xt_accepts T q (repeat 0 n).

Lemma xafter_nil g pre : xt_mem_ok T g -> xany pre -> xafter T g pre [] = Ok [].
Proof. intros Hg Hp. destruct (C08_any_history_xof P T HT g pre [] Hg Hp) as ([|x r] & E & L); [constructor|exact E|discriminate L]. Qed.
Lemma xafter_one g pre o post x r : xafter T g pre (o :: post) = Ok (x :: r) -> xafter T g pre [o] = Ok [x].
Proof.
  unfold xafter. destruct (xt_new T g) as [s| |]; cbn [bind]; try discriminate.
  destruct (xof_run P s pre) as [[t l]| |]; cbn [bind xof_run]; try discriminate.
  destruct (xof_step P t o) as [[u y]| |]; cbn [bind]; try discriminate.
  destruct (xof_run P u post) as [[w ys]| |]; cbn [bind]; try discriminate. intros E. injection E as -> _. reflexivity.
Qed.
Lemma overlay_length (dst l : list N) pos : (pos + length l <= length dst)%nat -> length (overlay dst pos l) = length dst.
Proof. intros H. unfold overlay. rewrite !app_length, firstn_length, skipn_length. lia. Qed.
Lemma squeeze_buf_length t n u b : squeeze_buf P t n = Ok (u, b) -> length b = n.
Proof.
  unfold squeeze_buf. destruct (xp_squeeze P t n) as [[s w]| |]; cbn [bind]; try discriminate.
  unfold memcpy. destruct ((0 + length w <=? length (zeros n))%nat && (length w <=? length w)%nat) eqn:E; cbn [bind]; try discriminate.
  intros K. injection K as <- <-. apply andb_prop in E. destruct E as [E _]. apply Nat.leb_le in E.
  rewrite overlay_length; unfold zeros in *; rewrite ?firstn_length, ?repeat_length in *; lia.
Qed.
Lemma one_xshape g pre o x : xt_mem_ok T g -> xany pre -> any_xop o -> xafter T g pre [o] = Ok [x] ->
  out_shape x = xof_shape acc o.
Proof.
  intros Hg Hp Ho E. destruct o as [[f d|b|q v]|n|n|n]; cbn [xof_shape base_shape].
  - unfold xafter in E. destruct (xt_new T g) as [s| |]; cbn [bind] in E; try discriminate.
    destruct (xof_run P s pre) as [[t l]| |]; cbn [bind xof_run xof_step base_step] in E; try discriminate.
    destruct (absorb P f t d); cbn [bind] in E; try discriminate. injection E as <-. reflexivity.
  - unfold xafter in E. destruct (xt_new T g) as [s| |]; cbn [bind] in E; try discriminate.
    destruct (xof_run P s pre) as [[t l]| |]; cbn [bind xof_run xof_step base_step] in E; try discriminate.
    destruct (reset P b t); cbn [bind] in E; try discriminate. injection E as <-. reflexivity.
  - destruct (C38_any_history_xof P T HT g pre q v Hg Hp Ho) as [E' _]. rewrite E' in E. injection E as <-.
    unfold acc. rewrite <- (xaccepts_length P T HT). destruct (xt_accepts T q v); reflexivity.
  - unfold xafter in E. destruct (xt_new T g) as [s| |]; cbn [bind] in E; try discriminate.
    destruct (xof_run P s pre) as [[t l]| |]; cbn [bind xof_run xof_step] in E; try discriminate.
    destruct (squeeze_buf P t n) as [[u b]| |] eqn:Q; cbn [bind] in E; try discriminate. injection E as <-.
    cbn [out_shape]. rewrite (squeeze_buf_length _ _ _ _ Q). reflexivity.
  - destruct (C07_any_history_xof P T HT g pre Hg Hp n [] Ho ltac:(constructor)) as (b & r & _ & E2 & _ & L & _).
    rewrite E2 in E. injection E as <- _. cbn [out_shape]. rewrite L. reflexivity.
  - destruct (C07_any_history_xof P T HT g pre Hg Hp n [] Ho ltac:(constructor)) as (b & r & _ & _ & E3 & L & _).
    rewrite E3 in E. injection E as <- _. cbn [out_shape]. f_equal. rewrite <- L.
    clear. unfold spec_hex. induction b as [|c b IH]; [reflexivity|]. cbn [flat_map app length]. cbn [length] in *. lia.
Qed.
Lemma all_xshapes g post : forall pre, xt_mem_ok T g -> xany pre -> xany post ->
  exists r, xafter T g pre post = Ok r /\ map out_shape r = map (xof_shape acc) post.
Proof.
  induction post as [|o post IH]; intros pre Hg Hp Hq.
  - exists []. split; [apply xafter_nil; assumption|reflexivity].
  - destruct (C08_any_history_xof P T HT g pre (o :: post) Hg Hp Hq) as ([|x r] & E & L); [discriminate L|].
    inversion_clear Hq. destruct (IH (pre ++ [o]) Hg) as (r' & E' & S'); [apply Forall_app; split; [assumption|repeat constructor; assumption]|assumption|].
    rewrite xafter_move, E in E'. cbn [bind tl] in E'. injection E' as <-.
    exists (x :: r). split; [exact E|]. cbn [map]. f_equal; [|exact S'].
    exact (one_xshape g pre o x Hg Hp H (xafter_one g pre o post x r E)).
Qed.
End Xof.

(** Calls alike have outcomes alike. *)
Lemma like_shape {param} acc size (l l' : list (hash_op param)) : Forall2 hash_like l l' ->
  map (hash_shape acc size) l = map (hash_shape acc size) l'.
Proof.
  induction 1 as [|o o' l l' H _ IH]; [reflexivity|]. cbn [map]. f_equal; [|exact IH].
  destruct o as [[]| | |], o' as [[]| | |]; cbn in H |- *; try contradiction; try reflexivity; try (rewrite H; reflexivity).
  destruct H as [-> ->]. reflexivity.
Qed.
Lemma xlike_shape {param} acc (l l' : list (xof_op param)) : Forall2 xof_like l l' ->
  map (xof_shape acc) l = map (xof_shape acc) l'.
Proof.
  induction 1 as [|o o' l l' H _ IH]; [reflexivity|]. cbn [map]. f_equal; [|exact IH].
  destruct o as [[]| | |], o' as [[]| | |]; cbn in H |- *; try contradiction; try reflexivity; try (rewrite H; reflexivity).
  destruct H as [-> ->]. reflexivity.
Qed.
Lemma lengths_only P (T : htype P) : library T -> forall g g' pre pre' post post',
  ht_mem_ok T g -> ht_mem_ok T g' -> hany pre -> hany pre' -> hany post -> hany post' ->
  Forall2 hash_like post post' ->
  exists r r', after T g pre post = Ok r /\ after T g' pre' post' = Ok r' /\ map out_shape r = map out_shape r'.
Proof.
  intros H g g' pre pre' post post' Hg Hg' Hp Hp' Hq Hq' HL.
  destruct (all_shapes P T H g post pre Hg Hp Hq) as (r & E & S). destruct (all_shapes P T H g' post' pre' Hg' Hp' Hq') as (r' & E' & S').
  exists r, r'. split; [exact E|split; [exact E'|]]. rewrite S, S'. apply like_shape. exact HL.
Qed.
Lemma xlengths_only P (T : xtype P) : xlibrary T -> forall g g' pre pre' post post',
  xt_mem_ok T g -> xt_mem_ok T g' -> xany pre -> xany pre' -> xany post -> xany post' ->
  Forall2 xof_like post post' ->
  exists r r', xafter T g pre post = Ok r /\ xafter T g' pre' post' = Ok r' /\ map out_shape r = map out_shape r'.
Proof.
  intros H g g' pre pre' post post' Hg Hg' Hp Hp' Hq Hq' HL.
  destruct (all_xshapes P T H g post pre Hg Hp Hq) as (r & E & S). destruct (all_xshapes P T H g' post' pre' Hg' Hp' Hq') as (r' & E' & S').
  exists r, r'. split; [exact E|split; [exact E'|]]. rewrite S, S'. apply xlike_shape. exact HL.
Qed.
