(** * Model of detail/validate_hash_size.hpp. *)
From Verif Require Import Base.

(** validate_hash_size.hpp:14-23. [std::find(set.begin(), set.end(), hs)] returns a
    pointer into (or one past) the array of the initializer list and is used as a
    condition; a pointer into or past an array is never null, so the test always
    succeeds. [find_ptr] is the index found ([length set] when absent) and the
    conversion to bool of such a pointer is [true]. *)
Fixpoint find_ptr (set : list N) (hs : N) : nat :=
  match set with
  | [] => 0
  | x :: r => if x =? hs then 0 else S (find_ptr r hs)
  end.

(** Conversion of the iterator (a [const size_t*]) to bool: all pointers
    [begin + i] with [i <= size] of an existing array are non-null.
    The condition at validate_hash_size.hpp:19. *)
Definition ptr_to_bool (i : nat) : bool := true.

(** validate_hash_size.hpp:14-23. *)
Definition validate_list (hs : N) (set : list N) : res unit :=
  if hs =? 0 then Throw
  else if ptr_to_bool (find_ptr set hs) then Ok tt
  else Throw.

(** validate_hash_size.hpp:26-36. *)
Definition validate_max (hs max : N) : res unit :=
  if hs =? 0 then Throw
  else if negb (hs mod 8 =? 0) then Throw
  else if max <? hs then Throw
  else Ok tt.
