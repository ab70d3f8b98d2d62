(** * Providers of the library meet the conditions on providers of others. *)
From Coq Require Import Lia.
From Verif Require Import Base Lemmas Hasher HasherSpec HasherProof MdState MdProof Md5 Md5Spec Md5Proof
  Blake BlakeSpec BlakeProof Sha3Spec Shake ShakeProof Library LibraryTypes XLibraryProof EmptySqueezeProof Custom CustomProof.

Lemma md5_contract : exists usable, hash_contract md5 md5_spec usable /\
  forall g, ht_mem_ok md5_type g -> exists s, ht_new md5_type g = Ok s /\ usable tt s.
Proof.
  eexists. split; [exact (sim_contract md5_sim eq_refl (fun q => match q with end))|].
  intros g Hg. cbn [md5_type ht_new]. eexists. split; [reflexivity|]. cbv beta.
  apply (sim_init md5 md5_spec md5_R true md5_sim _ tt []). apply md_inv_start; [lia|exact Hg].
Qed.
Lemma blake_contract hs : bl_size hs -> exists usable, hash_contract blake (blake_spec hs) usable /\
  forall g, length (sm g) = 128%nat -> exists s, bl_ctor hs g = Ok s /\ usable (sp_default (blake_spec hs)) s.
Proof.
  intros Hh. eexists. split.
  - apply (sim_contract (blake_sim hs Hh) eq_refl). intros q v s p msg HR Hv E. pose proof (bl_set_ok hs Hh q v s p msg Hv HR) as F.
    change (blake_set hs q v p = None) in E. rewrite E in F. exact F.
  - intros g Hg. assert (E : bl_ctor hs g = bl_ctor_static hs g) by (destruct Hh as [X|[X|[X|X]]]; rewrite X; reflexivity).
    rewrite E. eexists. split; [reflexivity|]. cbv beta. apply (bl_init_ok hs Hh); [reflexivity|apply zeros_length|exact Hg|].
    symmetry. apply (zero_salt hs Hh).
Qed.
Section Start.
  Context {P : xof_provider} {T : xtype P} {S : xof_spec (p_param P)} {R : pst P -> xs_params S -> list N -> nat -> Prop}.
  Hypothesis H : xstart T S R.
  Hypothesis Hc : xt_clr T = true.
  Hypothesis takes_all : forall q v p, xs_set S q v p <> None.
  Lemma xstart_contract : exists usable, xof_contract P S usable /\
    forall g, xt_mem_ok T g -> exists s, xt_new T g = Ok s /\ usable (xs_default S) s.
  Proof.
    eexists. split.
    - apply (xsim_contract (xs_sim T S R H) (fun p m k n => xg_prefix T S (xs_good T S R H) p m k n) Hc).
      intros q v s p msg k _ _ E. destruct (takes_all q v p E).
    - intros g Hg. destruct (xs_new T S R H g Hg) as (s & E & R0). exists s. split; [exact E|]. cbv beta.
      exact (xsim_init P S R _ (xs_sim T S R H) s _ _ _ R0).
  Qed.
End Start.
Lemma shake128_contract : exists usable, xof_contract (shake 128 24) (shake_spec 16) usable /\
  forall g, xt_mem_ok (shake_type 128) g -> exists s, xt_new (shake_type 128) g = Ok s /\ usable tt s.
Proof. exact (xstart_contract (xstart_shake 128 21 16 ltac:(lia) eq_refl eq_refl) eq_refl (fun q => match q with end)). Qed.
