(** * Threads (C71).

    README.md:297-303 says which calls may be made at the same time. A call is not one step
    here: it begins, and it ends some time later; in between other threads run. A const call
    first copies the provider and then works on the copy. Two calls on one object that
    overlap are a data race unless both are const, and a data race is undefined behaviour.
    The threads do not synchronise with each other. Simplification: execution is an
    interleaving of these steps, and destruction and copying of shared objects are left out. *)
From Verif Require Import Base Hasher Library LibraryTypes Objects Construct AnyCalls.

Section Threads.
  (** As in Objects.v; [const] tells which member functions are declared const. *)
  Variable kind : Type.
  Variable kind_eq : forall a b : kind, {a = b} + {a <> b}.
  Variable M : kind -> machine.
  Variable const : forall k, m_op (M k) -> bool.
  Notation store := (store kind M).

  (** A call on object [ci] of type [ck]. A caller's view; no code of /repo. *)
  Record call := mkcall { ck : kind; ci : nat; co : m_op (M ck) }.
  (** The calls are on the same object. Language rules; no code of /repo. *)
  Definition same_object (c d : call) : bool :=
    if kind_eq (ck c) (ck d) then (ci c =? ci d)%nat else false.
  (** Both access the members, and one of them may write. Language rules; no code of /repo. *)
  Definition conflict (c d : call) : bool :=
    same_object c d && negb (const (ck c) (co c) && const (ck d) (co d)).

  (** A thread between two calls, in a call, or in a const call after
      [HashProvider copy(provider)] (hasher.hpp:329, 351), with the calls still to be made. *)
  Inductive thread :=
  | Between (todo : list call)
  | Inside (c : call) (todo : list call)
  | Copied (c : call) (copy : m_st (M (ck c))) (todo : list call).
  (** The objects (hasher.hpp:394), the threads, and the calls that have returned.
      A caller's view; no code of /repo. *)
  Record config := mkconfig { mem : store; threads : list thread; log : list (nat * (call * out)) }.

  (** The call a thread is in. A caller's view; no code of /repo. *)
  Definition inside (th : thread) : option call :=
    match th with Between _ => None | Inside c _ | Copied c _ _ => Some c end.
  (** [c] would overlap a call it conflicts with. Language rules; no code of /repo. *)
  Definition races (c : call) (ths : list thread) : bool :=
    existsb (fun th => match inside th with Some d => conflict c d | None => false end) ths.

  (** What a step leads to; [Undefined] stands for undefined behaviour of the call itself.
      Language rules; no code of /repo. *)
  Inductive outcome := Run (cfg : config) | DataRace | Undefined.

  (** The next step of thread [t]. The const calls are at hasher.hpp:322-378: begin, copy
      (329, 351), and the rest, which works on the copy. The others, at hasher.hpp:85-302 and
      385-390, work on the object itself and have changed it when they return. *)
  Definition thread_step (cfg : config) (t : nat) : outcome :=
    let go th l := mkconfig (mem cfg) (Base.upd t th (threads cfg)) l in
    match nth_error (threads cfg) t with
    | None | Some (Between []) => Run cfg
    | Some (Between (c :: todo)) =>
      if races c (threads cfg) then DataRace else Run (go (Inside c todo) (log cfg))
    | Some (Inside c todo) =>
      if const (ck c) (co c) then Run (go (Copied c (mem cfg (ck c) (ci c)) todo) (log cfg))
      else match m_step (M (ck c)) (mem cfg (ck c) (ci c)) (co c) with
           | Ok (v, x) =>
             Run (mkconfig (Objects.upd kind kind_eq (mem cfg) (ck c) (ci c) v)
                    (Base.upd t (Between todo) (threads cfg)) (log cfg ++ [(t, (c, x))]))
           | _ => Undefined
           end
    | Some (Copied c copy todo) =>
      match m_step (M (ck c)) copy (co c) with
      | Ok (_, x) => Run (go (Between todo) (log cfg ++ [(t, (c, x))]))
      | _ => Undefined
      end
    end.
  (** The threads named by [sched] make a step each. A caller's view; no code of /repo. *)
  Fixpoint threads_run (cfg : config) (sched : list nat) : outcome :=
    match sched with
    | [] => Run cfg
    | t :: r => match thread_step cfg t with Run cfg => threads_run cfg r | o => o end
    end.
  (** Thread [t] is about to make the calls [nth t progs]. A caller's view; no code of /repo. *)
  Definition initial (s : store) (progs : list (list call)) : config := mkconfig s (map Between progs) [].

  (** ** Specification *)
  (** The calls one after the other, in the store of Objects.v. Specification; no code of /repo. *)
  Definition serial (s : store) (p : list call) : res (store * list out) :=
    events_run kind kind_eq M s (map (fun c => ECall (ck c) (ci c) (co c)) p).
  (** Calls and results of thread [t]. Specification; no code of /repo. *)
  Definition of_thread {A} (t : nat) (l : list (nat * A)) : list A :=
    map snd (filter (fun x => (fst x =? t)%nat) l).
  (** No call of one thread conflicts with a call of another one; README.md:301-303.
      Specification; no code of /repo. *)
  Definition synchronized (progs : list (list call)) : Prop :=
    forall t u p q c d, t <> u -> nth_error progs t = Some p -> nth_error progs u = Some q ->
    In c p -> In d q -> conflict c d = false.
  (** All threads are done. Specification; no code of /repo. *)
  Definition finished (cfg : config) : Prop := Forall (fun th => th = Between []) (threads cfg).
End Threads.
Arguments mkcall {kind M}. Arguments ck {kind M}. Arguments ci {kind M}. Arguments co {kind M}.
Arguments mem {kind M}. Arguments threads {kind M}. Arguments log {kind M}.
Arguments Run {kind M}. Arguments DataRace {kind M}. Arguments Undefined {kind M}.
Arguments Between {kind M}. Arguments Inside {kind M}. Arguments Copied {kind M}.

(** ** Threads over the types of the library *)
(** The calls of an object, hasher.hpp:85-390. *)
Definition obj_machine (o : object) : machine :=
  match o with OHash P _ => hash_machine P | OXof P _ => xof_machine P end.
(** The member functions declared const: the three at hasher.hpp:322-378. *)
Definition obj_const (o : object) : m_op (obj_machine o) -> bool :=
  match o with OHash _ _ => is_digest | OXof _ _ => fun _ => false end.
(** The types of LibraryTypes.v. Specification; no code of /repo. *)
Definition obj_library (o : object) : Prop :=
  match o with OHash P T => library T | OXof P T => xlibrary T end.
(** Calls with any arguments, see AnyCalls.v. Specification; no code of /repo. *)
Definition obj_any (o : object) : m_op (obj_machine o) -> Prop :=
  match o with OHash _ _ => any_hop | OXof _ _ => any_xop end.
(** The object has been constructed (hasher.hpp:49-70) in any memory. *)
Definition obj_new (o : object) : m_st (obj_machine o) -> Prop :=
  match o with
  | OHash P T => fun s => exists g, ht_mem_ok T g /\ ht_new T g = Ok s
  | OXof P T => fun s => exists g, xt_mem_ok T g /\ xt_new T g = Ok s
  end.
(** It has been constructed and then used by any calls. Specification; no code of /repo. *)
Definition obj_used (o : object) (s : m_st (obj_machine o)) : Prop :=
  exists s0 ops l, obj_new o s0 /\ Forall (obj_any o) ops /\ m_run (obj_machine o) s0 ops = Ok (s, l).
(** digest(buf, len), digest(it) or hexdigest(). Specification; no code of /repo. *)
Definition digest_call (o : object) : m_op (obj_machine o) -> Prop :=
  match o with
  | OHash P T => fun op => (exists buf, op = HDigestBuf buf) \/ op = HDigestIter \/ op = HHexDigest
  | OXof P T => fun _ => False
  end.
