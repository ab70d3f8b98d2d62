(** Replaying a vector file as the loop of test/test_vectors.hpp:139-185 does: one hasher,
    [set_*] for the lines C, Salt and Key, [absorb] for Msg, [hexdigest] ([hexsqueeze]) for
    MD, then [reset]. *)
From Coq Require Import String.
From Verif Require Import Base Hasher HasherSpec MdState Library LibraryTypes Blake2p VecUtil.

Section Replay.
  Context {param : Type}.
  Definition row := (list (param * string) * list string * string)%type.
  Definition row_ops (r : row) : list (base_op param) :=
    map (fun kv => SetParam (fst kv) (unhex (snd kv))) (fst (fst r)) ++
    map (fun m => Absorb FStr (unhex m)) (snd (fst r)).
  Definition row_digest (r : row) : list (hash_op param) :=
    map HBase (row_ops r) ++ [HHexDigest; HBase (Reset false)].
  Definition row_squeeze (r : row) : list (xof_op param) :=
    map XBase (row_ops r) ++ [XHexSqueeze (String.length (snd r) / 2); XBase (Reset false)].
End Replay.

Definition strings (l : list out) : list (list N) :=
  flat_map (fun o => match o with OBytes b => [b] | _ => [] end) l.
Fixpoint all_are (l : list (list N)) (e : list string) : bool :=
  match l, e with
  | [], [] => true
  | a :: l, b :: e => leqb a (str b) && all_are l e
  | _, _ => false
  end.
Definition replay {P} (T : htype P) (g : ht_mem T) (rows : list row) : bool :=
  match hash_outs P (ht_new T g) (flat_map row_digest rows) with
  | Ok l => all_are (strings l) (map snd rows)
  | _ => false
  end.
Definition xreplay {P} (T : xtype P) (g : xt_mem T) (rows : list row) : bool :=
  match xof_outs P (xt_new T g) (flat_map row_squeeze rows) with
  | Ok l => all_are (strings l) (map snd rows)
  | _ => false
  end.

(** Memory with arbitrary contents. *)
Definition mst (h m : nat) : st := mkst (junk h) (junk m) 77 99.
Definition mtree (m leaves : nat) : b2p_mem :=
  mkb2pm (mst 9 m, 5) (repeat (mst 9 m, 6) leaves) (junk 512) 3 4.
