(** * Counterexample for Ascon-CXOF. *)
From Verif Require Import Base VecUtil Hasher HasherSpec HasherProof MdState SpongeRefuted
  Ascon AsconSpec AsconProof Esch EschSpec EschProof.

(** The constructed object does not depend on the memory. *)
Definition cxof_new : res ascon_st := fresh_of (ascon_ctor (zero_st 5 64)) (ascon_init ACxof).
Lemma cxof_fresh g : length (sm g) = 64%nat -> fresh_of (ascon_ctor g) (ascon_init ACxof) = cxof_new.
Proof.
  intros Hg. unfold cxof_new, fresh_of, ascon_ctor. cbn [bind]. unfold ascon_init. cbn [ak sm aZ].
  unfold zero_memory. rewrite Hg. reflexivity.
Qed.

Lemma xof_outs_ok P fresh s0 s1 ops l : fresh = Ok s0 -> xof_run P s0 ops = Ok (s1, l) -> xof_outs P fresh ops = Ok l.
Proof. intros -> E. unfold xof_outs. cbn [bind]. rewrite E. reflexivity. Qed.

(** reset(true) keeps the customization string. *)
Theorem ascon_cxof_reset_keeps_customization g : length (sm g) = 64%nat ->
  ~ ximplements ascon_cxof ascon_cxof_spec true (fresh_of (ascon_ctor g) (ascon_init ACxof)).
Proof.
  intros Hg H. rewrite (cxof_fresh g Hg) in H.
  assert (O1 : xof_ops_ok ascon_cxof_spec true (xfresh ascon_cxof_spec)
            [XBase (SetParam AsCustomization [65]); XBase (Reset true); XSqueezeBuf 8]).
  { split; [split; [|exact I]|].
    - constructor; [reflexivity|constructor].
    - split; [split; [exact (fun _ => eq_refl)|exact I]|]. split; [cbn; lia|exact I]. }
  assert (O2 : xof_ops_ok ascon_cxof_spec true (xfresh ascon_cxof_spec) [XSqueezeBuf 8]).
  { split; [cbn; lia|exact I]. }
  destruct (H _ O1) as (s0 & s1 & E0 & E1). destruct (H _ O2) as (s0' & s2 & E0' & E2).
  assert (D : last_bytes (xof_outs ascon_cxof cxof_new
                [XBase (SetParam AsCustomization [65]); XBase (Reset true); XSqueezeBuf 8])
              <> last_bytes (xof_outs ascon_cxof cxof_new [XSqueezeBuf 8])).
  { vm_compute. discriminate. }
  apply D. refine (eq_trans (f_equal last_bytes (xof_outs_ok ascon_cxof _ _ _ _ _ E0 E1)) _).
  refine (eq_trans _ (eq_sym (f_equal last_bytes (xof_outs_ok ascon_cxof _ _ _ _ _ E0' E2)))).
  reflexivity.
Qed.
