(** * Threads (C71): README.md:297-303.

    [kind] are the C++ types in use, each a type of the library ([obj_library]); the objects
    have been constructed and used in any way before ([used]); thread [t] makes the calls
    [nth t progs], with any arguments. A schedule names the threads in the order in which they
    make their steps; a call has two or three of them, see Threads.v. *)
From Verif Require Import Base Hasher Library LibraryTypes Objects Construct AnyCalls Threads ThreadsProof ThreadsLib.
From Verif Require Import MdState.

(** Without a data race the results are those of the calls one after the other, in the order in
    which they returned; each thread's calls return in its order. *)
Theorem C71_serial kind (kind_eq : forall a b : kind, {a = b} + {a <> b}) (ty : kind -> object) s progs sched cfg :
  threads_run kind kind_eq (fun k => obj_machine (ty k)) (fun k => obj_const (ty k))
    (initial kind (fun k => obj_machine (ty k)) s progs) sched = Run cfg ->
  (exists s', serial kind kind_eq (fun k => obj_machine (ty k)) s (map (fun e => fst (snd e)) (log cfg)) =
       Ok (s', map (fun e => snd (snd e)) (log cfg)) /\ forall k i, s' k i = mem cfg k i) /\
  (forall t p, nth_error progs t = Some p -> exists rest, p = map fst (of_thread t (log cfg)) ++ rest).
Proof. exact (lib_serial kind kind_eq ty s progs sched cfg). Qed.

(** If the objects that several threads use are only used with digest and hexdigest, no schedule leads to a data race or
    to undefined behaviour, and each thread gets what it gets when it runs alone. *)
Theorem C71_safe kind (kind_eq : forall a b : kind, {a = b} + {a <> b}) (ty : kind -> object) :
  (forall k, obj_library (ty k)) -> forall s progs sched,
  used kind ty s -> Forall (Forall (any_call kind ty)) progs ->
  (forall t u p q c d, t <> u -> nth_error progs t = Some p -> nth_error progs u = Some q -> In c p -> In d q ->
     ck c = ck d -> ci c = ci d -> digest_call (ty (ck c)) (co c) /\ digest_call (ty (ck d)) (co d)) ->
  exists cfg, threads_run kind kind_eq (fun k => obj_machine (ty k)) (fun k => obj_const (ty k))
    (initial kind (fun k => obj_machine (ty k)) s progs) sched = Run cfg /\
  forall t p, nth_error progs t = Some p -> exists s' l rest,
    serial kind kind_eq (fun k => obj_machine (ty k)) s p = Ok (s', l) /\
    l = map snd (of_thread t (log cfg)) ++ rest /\ (finished kind (fun k => obj_machine (ty k)) cfg -> rest = []).
Proof. exact (lib_shared kind kind_eq ty). Qed.
(** README.md:301: distinct objects. *)
Theorem C71_distinct_objects kind (kind_eq : forall a b : kind, {a = b} + {a <> b}) (ty : kind -> object) :
  (forall k, obj_library (ty k)) -> forall s progs sched,
  used kind ty s -> Forall (Forall (any_call kind ty)) progs ->
  (forall t u p q c d, t <> u -> nth_error progs t = Some p -> nth_error progs u = Some q -> In c p -> In d q ->
     (ck c, ci c) <> (ck d, ci d)) ->
  exists cfg, threads_run kind kind_eq (fun k => obj_machine (ty k)) (fun k => obj_const (ty k))
    (initial kind (fun k => obj_machine (ty k)) s progs) sched = Run cfg /\
  forall t p, nth_error progs t = Some p -> exists s' l rest,
    serial kind kind_eq (fun k => obj_machine (ty k)) s p = Ok (s', l) /\
    l = map snd (of_thread t (log cfg)) ++ rest /\ (finished kind (fun k => obj_machine (ty k)) cfg -> rest = []).
Proof.
  intros L s progs sched U A H. apply (lib_shared kind kind_eq ty L s progs sched U A).
  intros t u p q c d Hn Hp Hq Hc Hd E1 E2. destruct (H t u p q c d Hn Hp Hq Hc Hd). rewrite E1, E2. reflexivity.
Qed.
(** README.md:303: digest and hexdigest on shared objects; every call returns what it returns on
    the object as it was in the beginning. *)
Theorem C71_const_methods kind (kind_eq : forall a b : kind, {a = b} + {a <> b}) (ty : kind -> object) :
  (forall k, obj_library (ty k)) -> forall s progs sched,
  used kind ty s -> Forall (Forall (any_call kind ty)) progs ->
  (forall p c, In p progs -> In c p -> digest_call (ty (ck c)) (co c)) ->
  exists cfg, threads_run kind kind_eq (fun k => obj_machine (ty k)) (fun k => obj_const (ty k))
    (initial kind (fun k => obj_machine (ty k)) s progs) sched = Run cfg /\
  forall t p, nth_error progs t = Some p -> exists l rest,
    Forall2 (fun c x => m_step (obj_machine (ty (ck c))) (s (ck c) (ci c)) (co c) = Ok (s (ck c) (ci c), x)) p l /\
    l = map snd (of_thread t (log cfg)) ++ rest /\ (finished kind (fun k => obj_machine (ty k)) cfg -> rest = []).
Proof. exact (lib_const kind kind_eq ty). Qed.
(** README.md:302: otherwise there is a schedule with a data race. *)
Theorem C71_conflict_races kind (kind_eq : forall a b : kind, {a = b} + {a <> b}) (ty : kind -> object) :
  (forall k, obj_library (ty k)) -> forall s progs t u p q c d,
  used kind ty s -> Forall (Forall (any_call kind ty)) progs ->
  t <> u -> nth_error progs t = Some p -> nth_error progs u = Some q -> In c p -> In d q ->
  ck c = ck d -> ci c = ci d -> ~ digest_call (ty (ck c)) (co c) ->
  exists sched, threads_run kind kind_eq (fun k => obj_machine (ty k)) (fun k => obj_const (ty k))
    (initial kind (fun k => obj_machine (ty k)) s progs) sched = DataRace.
Proof. exact (lib_races kind kind_eq ty). Qed.
(** Apart from data races nothing goes wrong. *)
Theorem C71_no_other kind (kind_eq : forall a b : kind, {a = b} + {a <> b}) (ty : kind -> object) :
  (forall k, obj_library (ty k)) -> forall s progs sched,
  used kind ty s -> Forall (Forall (any_call kind ty)) progs ->
  threads_run kind kind_eq (fun k => obj_machine (ty k)) (fun k => obj_const (ty k))
    (initial kind (fun k => obj_machine (ty k)) s progs) sched <> Undefined.
Proof. exact (no_undefined kind kind_eq ty). Qed.
(** digest and hexdigest leave the object as it is. *)
Theorem C71_const_calls o op s s' x :
  digest_call o op -> m_step (obj_machine o) s op = Ok (s', x) -> s' = s.
Proof. intros H. apply obj_const_keeps, digest_const, H. Qed.

(** ** The hypotheses hold, e.g., for MD5 and SHAKE128 objects *)
Definition C71_ty (b : bool) : object := if b then OHash _ md5_type else OXof _ (shake_type 128).
Notation C71_M := (fun k => obj_machine (C71_ty k)).
Definition C71_store : option (store bool C71_M) :=
  match ht_new md5_type (mkst [1; 2; 3; 4] (repeat 7 64) 5 6), xt_new (shake_type 128) (mkst (repeat 9 25) (repeat 7 168) 5 6, true, 3) with
  | Ok a, Ok b => Some (fun k => match k return nat -> m_st (C71_M k) with true => fun _ => a | false => fun _ => b end)
  | _, _ => None
  end.
Example C71_example_used : (forall k, obj_library (C71_ty k)) /\ exists s, C71_store = Some s /\ used bool C71_ty s.
Proof.
  split; [intros [|]; [exact lib_md5|exact xlib_shake128]|]. unfold C71_store.
  destruct (ht_new md5_type _) as [a| |] eqn:Ea; [|vm_compute in Ea; discriminate Ea..].
  destruct (xt_new (shake_type 128) _) as [b| |] eqn:Eb; [|vm_compute in Eb; discriminate Eb..].
  eexists. split; [reflexivity|]. intros [|] i.
  - exists a, [], []. split; [eexists; split; [|exact Ea]; reflexivity|]. split; [constructor|reflexivity].
  - exists b, [], []. split; [eexists; split; [|exact Eb]; reflexivity|]. split; [constructor|reflexivity].
Qed.
Definition C71_md5 (i : nat) (o : hash_op _) : call bool C71_M := mkcall (M := C71_M) true i o.
Definition C71_shake (i : nat) (o : xof_op _) : call bool C71_M := mkcall (M := C71_M) false i o.
(* thread 0 and thread 1 share the object md5 1, of which they take the digest at the same time *)
Definition C71_progs : list (list (call bool C71_M)) :=
  [[C71_md5 0 (HBase (Absorb FPtr [97])); C71_md5 1 HDigestIter; C71_md5 0 HDigestIter];
   [C71_shake 0 (XBase (Absorb FPtr [97])); C71_md5 1 HHexDigest; C71_shake 0 (XSqueezeBuf 4)]].
Example C71_example_shared : Forall (Forall (any_call bool C71_ty)) C71_progs /\
  forall t u p q c d, t <> u -> nth_error C71_progs t = Some p -> nth_error C71_progs u = Some q -> In c p -> In d q ->
  ck c = ck d -> ci c = ci d -> digest_call (C71_ty (ck c)) (co c) /\ digest_call (C71_ty (ck d)) (co d).
Proof.
  split.
  - repeat constructor; cbn; repeat constructor; lia.
  - intros [|[|t]] [|[|u]] p q c d Hn Hp Hq Hc Hd; try contradiction; cbn [nth_error C71_progs] in Hp, Hq;
      try (destruct t; discriminate Hp); try (destruct u; discriminate Hq);
      injection Hp as <-; injection Hq as <-;
      destruct Hc as [<-|[<-|[<-|[]]]], Hd as [<-|[<-|[<-|[]]]]; cbn [ck ci C71_md5 C71_shake]; intros E1 E2;
      try discriminate E1; try discriminate E2; split; cbn [C71_ty digest_call co]; auto.
Qed.
Example C71_example_run : match C71_store with
  | Some s =>
    match threads_run bool Bool.bool_dec C71_M (fun k => obj_const (C71_ty k)) (initial bool C71_M s C71_progs)
            [0; 1; 0; 1; 0; 1; 1; 0; 0; 1; 1; 0; 0; 0; 1]%nat with
    | Run cfg =>
        (forallb (fun th => match th with Between [] => true | _ => false end) (threads cfg),
         map (fun e => (fst e, firstn 4 (out_concat [snd (snd e)]))) (log cfg))
    | _ => (false, [])
    end
  | None => (false, [])
  end = (true,
        [(0%nat, []); (1%nat, []); (0%nat, [0xd4; 0x1d; 0x8c; 0xd9]); (1%nat, [0x64; 0x34; 0x31; 0x64]);
         (0%nat, [0x0c; 0xc1; 0x75; 0xb9]); (1%nat, [0x85; 0xc8; 0xde; 0x88])]).
Proof. vm_compute. reflexivity. Qed.
Example C71_example_race : match C71_store with
  | Some s =>
    match threads_run bool Bool.bool_dec C71_M (fun k => obj_const (C71_ty k))
      (initial bool C71_M s [[C71_md5 0 HDigestIter]; [C71_md5 0 (HBase (Absorb FPtr [97]))]]) [0; 0; 1]%nat with
    | DataRace => true | _ => false
    end
  | None => false
  end = true.
Proof. vm_compute. reflexivity. Qed.

Definition threads_all := (@C71_serial, @C71_safe, @C71_distinct_objects, @C71_const_methods, @C71_conflict_races,
  @C71_no_other, @C71_const_calls).
Print Assumptions threads_all.
