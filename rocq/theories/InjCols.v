(** * The permutations of Groestl and Kupyna and the ciphers of Whirlpool and Streebog are injective (C54). *)
From Verif Require Import Base Lemmas WordLemmas TableLemmas SpecCommon GfSpec ColumnSpec ColumnProof GroestlSpec TTable GroestlProof KupynaSpec
  WhirlpoolSpec WhirlpoolProof StreebogSpec Inj InjArx InjGf PadInj.
From Verif Require LshProof.
From Coq Require Import ZArith Lia.

(** ** Groestl *)
Lemma aes_box_ok : box_ok aes_table = true.
Proof. vm_compute. reflexivity. Qed.
Lemma aes_sbox_inj : inj_on (fun x => x < 256) aes_sbox.
Proof. intros x y Hx Hy E. rewrite !aes_table_eq in E by assumption. exact (box_inj _ aes_box_ok x y Hx Hy E). Qed.
Lemma aes_sbox_lt x : x < 256 -> aes_sbox x < 256.
Proof. intros Hx. rewrite aes_table_eq by assumption. exact (box_lt _ x aes_box_ok Hx). Qed.
Lemma grs_mix_inv : mat_inv 0x11b 8 (circ8 [2; 2; 3; 4; 5; 3; 5; 7]) (circ8 [19; 90; 84; 114; 80; 223; 69; 83]) = true.
Proof. vm_compute. reflexivity. Qed.
Lemma grs_round_inj C const sigma : cbytes C const -> inj_on (cbytes C) (grs_round C const sigma) /\ forall A, cbytes C A -> cbytes C (grs_round C const sigma A).
Proof.
  intros HK. assert (S : forall A, cbytes C A -> cbytes C (col_sub C (fun _ => aes_sbox) (col_xor A const)))
    by (intros; apply col_sub_bytes; [intros; apply aes_sbox_lt; assumption|apply col_xor_bytes; assumption]).
  split.
  - intros A B HA HB E. unfold grs_round in E. apply (col_mix_inj C _ _ _ grs_mix_inv) in E; [|apply col_shift_bytes; auto|apply col_shift_bytes; auto].
    apply col_shift_inj in E; auto. apply col_sub_inj in E; [|intros; apply aes_sbox_inj|apply col_xor_bytes; auto|apply col_xor_bytes; auto].
    apply (col_xor_inj C const) in E; auto. apply HK.
  - intros A HA. apply col_mix_bytes; [split; reflexivity || discriminate|repeat constructor].
Qed.
Lemma grs_const_bytes C i : (C <= 16)%nat -> (i < 256)%nat -> cbytes C (grs_constP C i) /\ cbytes C (grs_constQ C i).
Proof.
  intros HC Hi. assert (X : forall c, (c < C)%nat -> N.lxor (16 * N.of_nat c) (N.of_nat i) < 256) by (intros; apply (lxor_lt 8); change (2 ^ 8) with 256; lia).
  split; (split; [apply colmat_length|]); apply Forall_forall; intros x Hx; apply in_map_iff in Hx; destruct Hx as (n & <- & Hn); apply in_seq in Hn;
    assert (Hc : (n / 8 < C)%nat) by (apply Nat.div_lt_upper_bound; lia).
  - destruct (_ =? _)%nat; [apply X; exact Hc|reflexivity].
  - destruct (_ =? _)%nat; [|reflexivity]. rewrite N.lxor_assoc. apply (lxor_lt 8); [reflexivity|apply X; exact Hc].
Qed.
Lemma grs_perm_inj C (const : nat -> list N) sigma : (forall i, (i < 256)%nat -> cbytes C (const i)) ->
  forall n, (n < 256)%nat -> inj_on (cbytes C) (fun A => fold_left (fun A i => grs_round C (const i) sigma A) (seq 0 n) A) /\
    forall A, cbytes C A -> cbytes C (fold_left (fun A i => grs_round C (const i) sigma A) (seq 0 n) A).
Proof.
  intros HK n Hn. apply (inj_fold (cbytes C) (fun A i => grs_round C (const i) sigma A) (fun i => i < 256)%nat).
  - intros i Hi. apply grs_round_inj. auto.
  - intros i A Hi HA. apply (grs_round_inj C (const i) sigma); auto.
  - apply Forall_forall. intros i Hi. apply in_seq in Hi. lia.
Qed.
Lemma grs_r_lt C : (grs_r C < 256)%nat.
Proof. unfold grs_r. destruct (_ =? _)%nat; lia. Qed.
Lemma grs_PQ_inj C : (C <= 16)%nat -> inj_on (cbytes C) (grs_P C) /\ inj_on (cbytes C) (grs_Q C).
Proof.
  intros HC. destruct (grs_perm_inj C (grs_constP C) (grs_sigmaP C) (fun i Hi => proj1 (grs_const_bytes C i HC Hi)) (grs_r C) (grs_r_lt C)) as [P _].
  destruct (grs_perm_inj C (grs_constQ C) (grs_sigmaQ C) (fun i Hi => proj2 (grs_const_bytes C i HC Hi)) (grs_r C) (grs_r_lt C)) as [Q _].
  split; [exact P|exact Q].
Qed.

(** ** Kupyna *)
Lemma kus_boxes_ok : forallb box_ok [kus_pi0; kus_pi1; kus_pi2; kus_pi3] = true.
Proof. vm_compute. reflexivity. Qed.
Lemma kus_box r : box_ok (nth (r mod 4) [kus_pi0; kus_pi1; kus_pi2; kus_pi3] []) = true.
Proof.
  pose proof kus_boxes_ok as K. rewrite forallb_forall in K. apply K. apply nth_In. exact (Nat.mod_upper_bound r 4 ltac:(discriminate)).
Qed.
Lemma kus_mix_inv : mat_inv 0x11d 8 (circ8 [1; 1; 5; 1; 8; 6; 7; 4]) (circ8 [173; 149; 118; 168; 47; 73; 215; 202]) = true.
Proof. vm_compute. reflexivity. Qed.
Lemma kus_layer_inj C : inj_on (cbytes C) (kus_layer C).
Proof.
  assert (S : forall A, cbytes C A -> cbytes C (col_sub C kus_sbox A)) by (intros; apply col_sub_bytes; auto; intros r x Hx; exact (box_lt _ x (kus_box r) Hx)).
  intros A B HA HB E. unfold kus_layer in E. apply (col_mix_inj C _ _ _ kus_mix_inv) in E; [|apply col_shift_bytes; auto|apply col_shift_bytes; auto].
  apply col_shift_inj in E; auto. apply col_sub_inj in E; auto. intros r _. exact (box_inj _ (kus_box r)).
Qed.
Lemma kus_layer_bytes C A : cbytes C (kus_layer C A).
Proof. apply col_mix_bytes; [split; reflexivity || discriminate|repeat constructor]. Qed.
Lemma kus_constx_bytes C i : (C <= 16)%nat -> (i < 256)%nat -> cbytes C (kus_constx C i).
Proof. intros HC Hi. exact (proj1 (grs_const_bytes C i HC Hi)). Qed.
Lemma flat_le_inj (f g : nat -> N) k n : forall s, (forall c, (s <= c < s + n)%nat -> f c < 256 ^ N.of_nat k /\ g c < 256 ^ N.of_nat k) ->
  flat_map (fun c => le_bytes k (f c)) (seq s n) = flat_map (fun c => le_bytes k (g c)) (seq s n) -> forall c, (s <= c < s + n)%nat -> f c = g c.
Proof.
  induction n; intros s H E c Hc; [lia|]. cbn [seq flat_map] in E. apply app_inj_head_len in E; [|rewrite !le_bytes_length; reflexivity].
  destruct E as [E0 E]. destruct (Nat.eq_dec c s) as [->|D].
  - apply (f_equal le_word) in E0. rewrite !le_word_bytes in E0. destruct (H s ltac:(lia)). rewrite !N.mod_small in E0 by assumption. exact E0.
  - apply (IHn (S s)); [intros; apply H; lia|exact E|lia].
Qed.
Lemma flat_le_length (f : nat -> N) k n : forall s, length (flat_map (fun c => le_bytes k (f c)) (seq s n)) = (n * k)%nat.
Proof. induction n; intros s; [reflexivity|]. cbn [seq flat_map]. rewrite app_length, le_bytes_length, IHn. reflexivity. Qed.
Lemma nth_skipn_add {A} (d : A) n : forall l i, nth i (skipn n l) d = nth (n + i) l d.
Proof. induction n; intros l i; [reflexivity|]. destruct l; [destruct i; reflexivity|]. apply IHn. Qed.
Lemma nth_column A c r : (r < 8)%nat -> nth r (kus_column A c) 0 = cell A r c.
Proof.
  intros Hr. unfold kus_column, cell. rewrite LshProof.nth_firstn_lt by exact Hr. apply nth_skipn_add.
Qed.
Lemma kus_column_ok C A c : cbytes C A -> (c < C)%nat -> length (kus_column A c) = 8%nat /\ bytes_ok (kus_column A c).
Proof.
  intros [L H] Hc. unfold kus_column. split; [rewrite firstn_length, skipn_length; lia|]. apply Forall_firstn, Forall_skipn. exact H.
Qed.
Lemma kus_addcol_inj C i : inj_on (cbytes C) (kus_addcol C i).
Proof.
  intros A B HA HB E. unfold kus_addcol in E. apply (cells_eq C); auto. intros r c Hr Hc.
  assert (Q : kus_column A c = kus_column B c).
  { apply flat_le_inj with (c := c) in E; [|intros; split; change (256 ^ N.of_nat 8) with (2 ^ 64); apply N.mod_upper_bound; discriminate|lia].
    destruct (kus_column_ok C A c HA Hc) as [LA BA]. destruct (kus_column_ok C B c HB Hc) as [LB BB].
    apply (add_inj_r 64) in E.
    - rewrite <- (le_bytes_word _ BA), <- (le_bytes_word _ BB), LA, LB. congruence.
    - unfold word. pose proof (le_word_lt _ BA) as X. rewrite LA in X. exact X.
    - unfold word. pose proof (le_word_lt _ BB) as X. rewrite LB in X. exact X. }
  rewrite <- (nth_column A c r Hr), Q. apply nth_column. exact Hr.
Qed.
Lemma kus_addcol_bytes C i A : cbytes C (kus_addcol C i A).
Proof.
  unfold kus_addcol. split.
  - rewrite flat_le_length. apply Nat.mul_comm.
  - apply Forall_flat_map. apply Forall_forall. intros c _. apply le_bytes_ok.
Qed.
Lemma kus_T_inj C : (C <= 16)%nat -> inj_on (cbytes C) (kus_Tx C) /\ inj_on (cbytes C) (kus_Tp C).
Proof.
  intros HC. assert (R : Forall (fun i => i < 256)%nat (seq 0 (kus_r C))).
  { apply Forall_forall. intros i Hi. apply in_seq in Hi. unfold kus_r in Hi. destruct (C =? 8)%nat; lia. }
  split.
  - apply (inj_fold (cbytes C) (fun A i => kus_layer C (col_xor A (kus_constx C i))) (fun i => i < 256)%nat); auto using kus_layer_bytes.
    intros i Hi A B HA HB E. apply kus_layer_inj in E; auto using col_xor_bytes, kus_constx_bytes.
    apply (col_xor_inj C (kus_constx C i)) in E; auto. apply kus_constx_bytes; auto.
  - apply (inj_fold (cbytes C) (fun A i => kus_layer C (kus_addcol C i A)) (fun i => i < 256)%nat); auto using kus_layer_bytes.
    intros i Hi A B HA HB E. apply kus_layer_inj in E; auto using kus_addcol_bytes. apply kus_addcol_inj in E; auto.
Qed.
(** ** Whirlpool *)
Definition wp_tab : list N := Eval vm_compute in map (fun i => wp_S (N.of_nat i)) (seq 0 256).
Lemma wp_tab_eq x : x < 256 -> wp_S x = nth (N.to_nat x) wp_tab 0.
Proof.
  intros Hx. assert (E : wp_tab = map (fun i => wp_S (N.of_nat i)) (seq 0 256)) by (vm_compute; reflexivity).
  rewrite E, (nth_map_seq _ 256) by lia. rewrite N2Nat.id. reflexivity.
Qed.
Lemma wp_box_ok : box_ok wp_tab = true.
Proof. vm_compute. reflexivity. Qed.
Lemma wp_S_inj : inj_on (fun x => x < 256) wp_S.
Proof. intros x y Hx Hy E. rewrite !wp_tab_eq in E by assumption. exact (box_inj _ wp_box_ok x y Hx Hy E). Qed.
Lemma wp_S_lt x : x < 256 -> wp_S x < 256.
Proof. intros Hx. rewrite wp_tab_eq by assumption. exact (box_lt _ x wp_box_ok Hx). Qed.
Lemma mat_colmat f : mat f = colmat 8 (fun r c => f c r).
Proof. reflexivity. Qed.
Lemma wp_gamma_eq A : cbytes 8 A -> wp_gamma A = col_sub 8 (fun _ => wp_S) A.
Proof.
  intros [L _]. unfold wp_gamma, col_sub. apply (nth_ext _ _ 0 0); [rewrite map_length, colmat_length; exact L|].
  intros n Hn. rewrite map_length, L in Hn. rewrite colmat_nth by exact Hn. rewrite (nth_indep _ 0 (wp_S 0)) by (rewrite map_length, L; exact Hn).
  rewrite map_nth. unfold cell. rewrite <- divmod8. reflexivity.
Qed.
Lemma wp_pi_inj : inj_on (cbytes 8) wp_pi.
Proof.
  intros A B HA HB E. apply (cells_eq 8); auto. intros j i Hj Hi. unfold wp_pi in E. rewrite !mat_colmat in E.
  pose proof (colmat_inj 8 _ _ E j ((i + j) mod 8)%nat Hj ltac:(apply Nat.mod_upper_bound; lia)) as Q. cbv beta in Q.
  change entry with (fun X i j => cell X j i) in Q. cbv beta in Q.
  replace (((i + j) mod 8 + 8 - j) mod 8)%nat with i in Q; [exact Q|].
  clear - Hi Hj. do 8 (destruct i; [do 8 (destruct j; [reflexivity|]); lia|]). lia.
Qed.
Lemma wp_pi_bytes A : cbytes 8 A -> cbytes 8 (wp_pi A).
Proof. intros H. unfold wp_pi. rewrite mat_colmat. apply colmat_bytes. intros. apply nth_bytes_lt. apply H. Qed.
Lemma wp_mix_inv : mat_inv 0x11d 8 (fun k j => wp_C j k) (fun k j => circ8 [4; 175; 14; 164; 194; 194; 203; 62] j k) = true.
Proof. vm_compute. reflexivity. Qed.
Lemma wp_mul_comm x j k : x < 256 -> gf_mul 0x11d x (wp_C j k) = gf_mul 0x11d (wp_C j k) x.
Proof.
  intros Hx. assert (C : forallb (fun c => forallb (fun x => gf_mul 0x11d (N.of_nat x) c =? gf_mul 0x11d c (N.of_nat x)) (seq 0 256)) [1; 1; 4; 1; 8; 5; 2; 9] = true)
    by (vm_compute; reflexivity).
  rewrite forallb_forall in C. specialize (C (wp_C j k) ltac:(unfold wp_C; apply nth_In; exact (Nat.mod_upper_bound (k + 8 - j) 8 ltac:(discriminate)))).
  rewrite forallb_forall in C. specialize (C (N.to_nat x) ltac:(apply in_seq; lia)). rewrite N2Nat.id in C. apply N.eqb_eq in C. exact C.
Qed.
Lemma wp_theta_eq A : cbytes 8 A -> wp_theta A = colmat 8 (fun k i => mv 0x11d 8 (fun k j => wp_C j k) (fun j => cell A j i) k).
Proof.
  intros H. unfold wp_theta. rewrite mat_colmat. unfold colmat. apply map_ext. intros n. unfold mv. apply xs_ext. intros j _.
  change (entry A (n / 8) j) with (cell A j (n / 8)). apply wp_mul_comm. eapply cbytes_cell; eauto.
Qed.
Lemma wp_theta_inj : inj_on (cbytes 8) wp_theta.
Proof.
  intros A B HA HB E. rewrite !wp_theta_eq in E by assumption. apply (cells_eq 8); auto. intros r c Hr Hc.
  apply (mv_inj _ 8 _ _ (fun j => cell A j c) (fun j => cell B j c) wp_mix_inv); auto; [intros; eapply cbytes_cell; eauto..|].
  intros i Hi. exact (colmat_inj 8 _ _ E i c Hi Hc).
Qed.
Lemma wp_C_lt j k : wp_C j k < 256.
Proof. apply nth_bytes_lt. repeat constructor. Qed.
Lemma wp_theta_bytes A : cbytes 8 A -> cbytes 8 (wp_theta A).
Proof.
  intros H. rewrite wp_theta_eq by exact H. apply colmat_bytes. intros. apply mv_lt; [split; reflexivity || discriminate|]. intros. apply wp_C_lt.
Qed.
Lemma wp_gamma_bytes A : cbytes 8 A -> cbytes 8 (wp_gamma A).
Proof. intros H. rewrite wp_gamma_eq by exact H. apply col_sub_bytes; [intros; apply wp_S_lt; assumption|exact H]. Qed.
Lemma wp_rho_inj K : cbytes 8 K -> inj_on (cbytes 8) (wp_rho K).
Proof.
  intros HK A B HA HB E. unfold wp_rho, wp_sigma in E. apply (col_xor_inj 8 K) in E; [|apply HK|auto using wp_theta_bytes, wp_pi_bytes, wp_gamma_bytes..].
  apply wp_theta_inj in E; auto using wp_pi_bytes, wp_gamma_bytes. apply wp_pi_inj in E; auto using wp_gamma_bytes.
  rewrite !wp_gamma_eq in E by assumption. apply col_sub_inj in E; auto. intros. apply wp_S_inj.
Qed.
Lemma wp_rho_bytes K A : cbytes 8 K -> cbytes 8 A -> cbytes 8 (wp_rho K A).
Proof. intros HK HA. apply col_xor_bytes; auto using wp_theta_bytes, wp_pi_bytes, wp_gamma_bytes. Qed.
Lemma wp_c_bytes r : (r <= 31)%nat -> cbytes 8 (wp_c r).
Proof.
  intros Hr. split; [reflexivity|]. apply Forall_forall. intros x Hx. unfold wp_c in Hx. rewrite mat_colmat in Hx. apply in_map_iff in Hx.
  destruct Hx as (n & <- & Hn). destruct (_ =? _)%nat; [|reflexivity]. apply wp_S_lt. pose proof (Nat.mod_upper_bound n 8). lia.
Qed.
Lemma wp_W_inj K : cbytes 8 K -> inj_on (cbytes 8) (wp_W K).
Proof.
  assert (G : forall l K, Forall (fun r => r <= 31)%nat l -> cbytes 8 K -> inj_on (cbytes 8) (fun A =>
    snd (fold_left (fun ks r => let K' := wp_rho (wp_c r) (fst ks) in (K', wp_rho K' (snd ks))) l (K, A)))).
  { induction l as [|r l IH]; intros K' Hl HK A B HA HB E; [exact E|]. inversion Hl; subst. cbn [fold_left fst snd] in E.
    assert (HK' : cbytes 8 (wp_rho (wp_c r) K')) by auto using wp_rho_bytes, wp_c_bytes.
    apply (IH (wp_rho (wp_c r) K')) in E; auto using wp_rho_bytes. apply wp_rho_inj in E; auto. }
  intros HK A B HA HB E. unfold wp_W in E. apply (G (seq 1 10) K) in E; auto.
  - apply (col_xor_inj 8 K) in E; auto. apply HK.
  - apply Forall_forall. intros i Hi. apply in_seq in Hi. lia.
  - apply col_xor_bytes; auto.
  - apply col_xor_bytes; auto.
Qed.

(** ** Streebog *)
Lemma sbs_box_ok : box_ok sbs_pi = true.
Proof. vm_compute. reflexivity. Qed.
Lemma sbs_S_eq A : cbytes 8 A -> sbs_S A = col_sub 8 (fun _ x => nth (N.to_nat x) sbs_pi 0) A.
Proof.
  intros [L _]. unfold sbs_S, col_sub. set (S := fun x => nth (N.to_nat x) sbs_pi 0). apply (nth_ext _ _ 0 0); [rewrite map_length, colmat_length; exact L|].
  intros n Hn. rewrite map_length, L in Hn. rewrite colmat_nth by exact Hn. rewrite (nth_indep _ 0 (S 0)) by (rewrite map_length, L; exact Hn).
  rewrite map_nth. unfold cell. rewrite <- divmod8. reflexivity.
Qed.
Lemma sbs_P_eq A : sbs_P A = colmat 8 (fun r c => cell A c r).
Proof. unfold sbs_P, colmat, cell. apply map_ext. intros n. reflexivity. Qed.
Lemma sbs_P_inj : inj_on (cbytes 8) sbs_P.
Proof.
  intros A B HA HB E. rewrite !sbs_P_eq in E. apply (cells_eq 8); auto. intros r c Hr Hc. exact (colmat_inj 8 _ _ E c r Hc Hr).
Qed.
Definition sbl (x : N) : N := xor_sum (fun i => if N.testbit x (N.of_nat i) then nth (63 - i) sbs_A 0 else 0) 64.
Lemma bits_linear (T : nat -> N) n : linear (fun x => xor_sum (fun i => if N.testbit x (N.of_nat i) then T i else 0) n).
Proof.
  intros a b. rewrite <- xs_xor. apply xs_ext. intros i _. rewrite N.lxor_spec.
  destruct (N.testbit a _), (N.testbit b _); cbn [xorb]; rewrite ?N.lxor_0_l, ?N.lxor_0_r, ?N.lxor_nilpotent; reflexivity.
Qed.
Lemma byte_at_bit x n t : (t < 8)%nat -> N.testbit (byte_at x n) (N.of_nat t) = N.testbit x (n + N.of_nat t).
Proof.
  intros Ht. unfold byte_at. rewrite N.land_spec, N.shiftr_spec by lia.
  replace (N.testbit 255 (N.of_nat t)) with true by (do 8 (destruct t; [reflexivity|]); lia). rewrite andb_true_r. f_equal. lia.
Qed.
Lemma sbs_l_sbl b : length b = 8%nat -> bytes_ok b -> sbs_l b = sbl (le_word b).
Proof.
  intros L H. unfold sbs_l, sbl. apply xs_ext. intros i Hi.
  replace (N.testbit (nth (i / 8) b 0) (N.of_nat (i mod 8))) with (N.testbit (le_word b) (N.of_nat i)); [reflexivity|].
  rewrite <- (le_bytes_word b H) at 2. rewrite L, nth_le_bytes by (apply Nat.div_lt_upper_bound; lia).
  rewrite byte_at_bit by (apply Nat.mod_upper_bound; lia). f_equal. pose proof (Nat.div_mod i 8 ltac:(lia)). lia.
Qed.
Definition sbl_rows : list N :=
  [15883693311715324171; 11951547150603936278; 6315692111306474540; 12562700020443288920;
   4732798557975754672; 9385939693182217853; 1838033625660710138; 3609919519380317673;
   5321515104836384689; 10569877454792946559; 4126250583716723710; 8252501167414832097;
   16434076134448221151; 15357907328524979107; 13205819305833401179; 8325181529112450742;
   3636779701120473256; 7273558182807154765; 14482909409152753818; 10225246750519705641;
   564003705979051346; 1061549626682320804; 2047944420903308885; 4095629339411061930;
   8080985030183505489; 16161970055619058850; 15966572691063121241; 12048623824364260018;
   6010790432794580089; 12021269703798437362; 5887684880122538745; 11706971340904387823;
   10958337611661572269; 3253489970683047239; 6506702949864687502; 13013404749147116289;
   8443634999186832130; 16887020405275063812; 14534350962595916808; 10337386645816657168;
   10450390819598204880; 4543707788375686845; 9087415572942872935; 18174528775422074830;
   16532951030188123009; 15555630727261608735; 12960650994805749310; 8910361772102939004;
   12389967157640927639; 5474410087613148979; 10875917043843161702; 3585719380549024972;
   7105291063516685701; 14135427294437296663; 10760859237658036526; 4011723120140423004;
   18425309235241946092; 16391887960769042117; 15849930156338916503; 12389831510439122995;
   5476114615602098278; 10872571808181288396; 3592540893300259461; 7109926850942658839].
Definition sbl_inv (x : N) : N := xor_sum (fun i => if N.testbit x (N.of_nat i) then nth i sbl_rows 0 else 0) 64.
Lemma sbl_inv_ok x : x < 2 ^ 64 -> sbl_inv (sbl x) = x.
Proof.
  intros Hx. apply (linear_ext (fun x => sbl_inv (sbl x)) (fun x => x) 64); [|intros a b; reflexivity| |exact Hx].
  - apply (linear_comp sbl sbl_inv); apply bits_linear.
  - assert (C : forallb (fun t => sbl_inv (sbl (2 ^ N.of_nat t)) =? 2 ^ N.of_nat t) (seq 0 64) = true) by (vm_compute; reflexivity).
    intros t Ht. rewrite forallb_forall in C. specialize (C t ltac:(apply in_seq; lia)). apply N.eqb_eq in C. exact C.
Qed.
Lemma sbl_lt x : sbl x < 2 ^ 64.
Proof.
  unfold sbl. assert (A : Forall (fun v => v < 2 ^ 64) sbs_A) by (repeat constructor).
  assert (G : forall n, xor_sum (fun i => if N.testbit x (N.of_nat i) then nth (63 - i) sbs_A 0 else 0) n < 2 ^ 64).
  { induction n; cbn [xor_sum]; [reflexivity|]. apply lxor_lt; [exact IHn|]. destruct (N.testbit _ _); [|reflexivity].
    destruct (Nat.lt_ge_cases (63 - n) (length sbs_A)) as [L|L]; [apply (proj1 (Forall_forall _ _) A), nth_In, L|].
    rewrite nth_overflow by exact L. reflexivity. }
  apply G.
Qed.
Lemma sbs_L_inj : inj_on (cbytes 8) sbs_L.
Proof.
  intros A B HA HB E. unfold sbs_L in E. apply (cells_eq 8); auto. intros r c Hr Hc.
  destruct (kus_column_ok 8 A c HA Hc) as [LA BA]. destruct (kus_column_ok 8 B c HB Hc) as [LB BB].
  assert (W : forall X i, cbytes 8 X -> (i < 8)%nat -> sbs_l (firstn 8 (skipn (8 * i) X)) < 2 ^ 64).
  { intros X i HX Hi. destruct (kus_column_ok 8 X i HX Hi) as [LX BX]. unfold kus_column in *. rewrite sbs_l_sbl by assumption. apply sbl_lt. }
  apply flat_le_inj with (c := c) in E; [|intros; split; apply W; auto; lia|lia].
  assert (Q : kus_column A c = kus_column B c).
  { change (sbs_l (kus_column A c) = sbs_l (kus_column B c)) in E. rewrite !sbs_l_sbl in E by assumption. apply (f_equal sbl_inv) in E.
    rewrite !sbl_inv_ok in E.
    - rewrite <- (le_bytes_word _ BA), <- (le_bytes_word _ BB), LA, LB. congruence.
    - pose proof (le_word_lt _ BB) as X. rewrite LB in X. exact X.
    - pose proof (le_word_lt _ BA) as X. rewrite LA in X. exact X. }
  rewrite <- (nth_column A c r Hr), Q. apply nth_column. exact Hr.
Qed.
Lemma sbs_S_bytes A : cbytes 8 A -> cbytes 8 (sbs_S A).
Proof. intros H. rewrite sbs_S_eq by exact H. apply col_sub_bytes; [|exact H]. intros _ x Hx. exact (box_lt _ x sbs_box_ok Hx). Qed.
Lemma sbs_P_bytes A : cbytes 8 A -> cbytes 8 (sbs_P A).
Proof. intros H. rewrite sbs_P_eq. apply colmat_bytes. intros. eapply cbytes_cell; eauto. Qed.
Lemma sbs_L_bytes A : cbytes 8 (sbs_L A).
Proof.
  split; [exact (flat_le_length (fun c => sbs_l (firstn 8 (skipn (8 * c) A))) 8 8 0)|]. apply Forall_flat_map. apply Forall_forall. intros c _. apply le_bytes_ok.
Qed.
Lemma sbs_LPS_inj : inj_on (cbytes 8) sbs_LPS.
Proof.
  intros A B HA HB E. unfold sbs_LPS in E. apply sbs_L_inj in E; auto using sbs_P_bytes, sbs_S_bytes. apply sbs_P_inj in E; auto using sbs_S_bytes.
  rewrite !sbs_S_eq in E by assumption. apply col_sub_inj in E; auto. intros r _. exact (box_inj _ sbs_box_ok).
Qed.
Lemma sbs_X_inj K : cbytes 8 K -> inj_on (cbytes 8) (sbs_X K).
Proof.
  intros HK A B HA HB E. unfold sbs_X in E. rewrite !(map2_comm N.lxor N.lxor_comm K) in E. apply (col_xor_inj 8 K) in E; auto. apply HK.
Qed.
Lemma sbs_X_bytes K A : cbytes 8 K -> cbytes 8 A -> cbytes 8 (sbs_X K A).
Proof. intros HK HA. apply col_xor_bytes; auto. Qed.
Lemma sbs_E_inj K : cbytes 8 K -> inj_on (cbytes 8) (sbs_E K).
Proof.
  assert (G : forall l K A B, cbytes 8 K -> cbytes 8 A -> cbytes 8 B ->
    (let '(K1, m) := fold_left (fun Km c => let '(K, m) := Km in (sbs_LPS (sbs_X K (le_bytes 64 c)), sbs_LPS (sbs_X K m))) l (K, A) in sbs_X K1 m) =
    (let '(K1, m) := fold_left (fun Km c => let '(K, m) := Km in (sbs_LPS (sbs_X K (le_bytes 64 c)), sbs_LPS (sbs_X K m))) l (K, B) in sbs_X K1 m) -> A = B).
  { induction l as [|c l IH]; intros K' A B HK HA HB E; cbn [fold_left] in E.
    - apply sbs_X_inj in E; auto.
    - apply IH in E; auto using sbs_L_bytes; try apply sbs_L_bytes. apply sbs_LPS_inj in E; auto using sbs_X_bytes. apply sbs_X_inj in E; auto. }
  intros HK A B HA HB E. unfold sbs_E in E. exact (G sbs_C K A B HK HA HB E).
Qed.
