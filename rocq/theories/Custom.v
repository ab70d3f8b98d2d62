(** * Providers of others: what hasher<HashProvider, Mixin> needs of them.

    README.md:104 and hasher.hpp:31 let HashProvider be any class with the functions that
    hasher.hpp calls. The conditions below speak about calls of these functions only. *)
From Verif Require Import Base Hasher HasherSpec.

Section Calls.
  Variable P : provider.
  (** update() with one piece after the other. A caller's view; no code of /repo. *)
  Fixpoint updates (s : pst P) (pieces : list (list N)) : res (pst P) :=
    match pieces with
    | [] => Ok s
    | d :: r => s <- p_update P s d ;; updates s r
    end.
End Calls.
(** squeeze() with one length after the other; what is written, in order.
    A caller's view; no code of /repo. *)
Fixpoint takes (P : xof_provider) (s : pst P) (lengths : list nat) : res (pst P * list N) :=
  match lengths with
  | [] => Ok (s, [])
  | n :: r =>
    ' (s, w) <- xp_squeeze P s n ;;
    ' (s, v) <- takes P s r ;;
    Ok (s, w ++ v)
  end.

(** Conditions on a hash provider. [usable p s]: an object on which init() may be called, with the
    parameters [p] set. After init() and any updates, final() writes the value of the function [S]
    for the concatenation; clear() and the setters leave a usable object, a setter that throws
    leaves the object alone. Nothing is said about the object after final(): hasher.hpp:329, 351
    call it on a copy. Specification; the functions called are those of hasher.hpp:52-394. *)
Record hash_contract (P : hash_provider) (S : hash_spec (p_param P)) (usable : sp_params S -> pst P -> Prop) : Prop := {
  hc_init : forall p s, usable p s -> exists s', p_init P s = Ok s';
  hc_update : forall p s s' pieces, usable p s -> p_init P s = Ok s' -> Forall bytes_ok pieces ->
    exists t u, updates P s' pieces = Ok t /\ usable p t /\ hp_size P t / 8 = N.of_nat (sp_size S) /\
      hp_final P t = Ok (u, sp_digest S p (concat pieces));
  hc_clear : forall p s s' pieces t, usable p s -> p_init P s = Ok s' -> Forall bytes_ok pieces -> updates P s' pieces = Ok t ->
    exists u, p_clear P t = Ok u /\ usable (sp_default S) u;
  hc_set : forall p s s' pieces t q v, usable p s -> p_init P s = Ok s' -> Forall bytes_ok pieces -> updates P s' pieces = Ok t ->
    bytes_ok v ->
    match sp_set S q v p with
    | Some p' => exists u, p_set P q v t = Done u /\ usable p' u
    | None => p_set P q v t = Raised t
    end;
  hc_digest : forall p s pieces, usable p s -> Forall bytes_ok pieces ->
    length (sp_digest S p (concat pieces)) = sp_size S /\ bytes_ok (sp_digest S p (concat pieces));
  hc_size : (0 < sp_size S)%nat
}.

(** The same for extendable output. Specification; the functions called are those of
    hasher.hpp:52-394. *)
Record xof_contract (P : xof_provider) (S : xof_spec (p_param P)) (usable : xs_params S -> pst P -> Prop) : Prop := {
  xc_init : forall p s, usable p s -> exists s', p_init P s = Ok s';
  xc_update : forall p s s' pieces, usable p s -> p_init P s = Ok s' -> Forall bytes_ok pieces ->
    exists t, updates P s' pieces = Ok t;
  xc_squeeze : forall p s s' pieces t lengths, usable p s -> p_init P s = Ok s' -> Forall bytes_ok pieces ->
    updates P s' pieces = Ok t -> Forall (fun n => (0 < n)%nat) lengths ->
    exists u, takes P t lengths = Ok (u, xs_out S p (concat pieces) (list_sum lengths)) /\ usable p u;
  xc_clear : forall p s s' pieces t lengths u w, usable p s -> p_init P s = Ok s' -> Forall bytes_ok pieces ->
    updates P s' pieces = Ok t -> Forall (fun n => (0 < n)%nat) lengths -> takes P t lengths = Ok (u, w) ->
    exists x, p_clear P u = Ok x /\ usable (xs_default S) x;
  xc_set : forall p s s' pieces t lengths u w q v, usable p s -> p_init P s = Ok s' -> Forall bytes_ok pieces ->
    updates P s' pieces = Ok t -> Forall (fun n => (0 < n)%nat) lengths -> takes P t lengths = Ok (u, w) -> bytes_ok v ->
    match xs_set S q v p with
    | Some p' => exists x, p_set P q v u = Done x /\ usable p' x
    | None => p_set P q v u = Raised u
    end;
  xc_out : forall p s pieces n, usable p s -> Forall bytes_ok pieces ->
    length (xs_out S p (concat pieces) n) = n /\ bytes_ok (xs_out S p (concat pieces) n)
}.

(** ** Providers for the examples *)

(** The sum of the bytes. Example; no code of /repo. *)
Definition total (l : list N) : N := fold_right N.add 0 l.
(** A check sum with a key of one byte; final() destroys the object. Example; no code of /repo. *)
Definition sum_set (q : unit) (v : list N) (s : N * N) : setres (N * N) :=
  match v with [b] => Done (b, snd s) | _ => Raised s end.
(** Example; no code of /repo. *)
Definition sum_provider : hash_provider :=
  {| hp := {| pst := N * N; p_init := fun s => Ok (fst s, fst s); p_update := fun s d => Ok (fst s, snd s + total d);
              p_clear := fun _ => Ok (0, 0); p_param := unit; p_set := sum_set |};
     hp_final := fun s => Ok ((0, 0), [snd s mod 256]); hp_size := fun _ => 8 |}.
(** Example; no code of /repo. *)
Definition sum_spec : hash_spec unit :=
  {| sp_params := N; sp_default := 0; sp_set := fun _ v _ => match v with [b] => Some b | _ => None end;
     sp_size := 1; sp_digest := fun p m => [(p + total m) mod 256] |}.
(** Its extendable output counts up from there. Example; no code of /repo. *)
Definition count_provider : xof_provider :=
  {| xp := {| pst := N * nat; p_init := fun _ => Ok (0, 0%nat); p_update := fun s d => Ok (fst s + total d, snd s);
              p_clear := fun s => Ok s; p_param := Empty_set; p_set := no_set |};
     xp_squeeze := fun s n => Ok ((fst s, (snd s + n)%nat), map (fun i => (fst s + N.of_nat i) mod 256) (seq (snd s) n)) |}.
(** Example; no code of /repo. *)
Definition count_spec : xof_spec Empty_set :=
  {| xs_params := unit; xs_default := tt; xs_set := no_params_set;
     xs_out := fun _ m n => map (fun i => (total m + N.of_nat i) mod 256) (seq 0 n) |}.
(** A provider for which the pieces matter: the ways to pass the data differ.
    Example; no code of /repo. *)
Definition last_provider : hash_provider :=
  {| hp := {| pst := list N; p_init := fun _ => Ok []; p_update := fun _ d => Ok d;
              p_clear := fun s => Ok s; p_param := Empty_set; p_set := no_set |};
     hp_final := fun s => Ok (s, [total s mod 256]); hp_size := fun _ => 8 |}.
