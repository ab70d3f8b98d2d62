(** * Properties of the hasher API for every type of the library (C01 - C09, C11, C13, C38 - C41, C44, C52).

    [library T] / [xlibrary T] (LibraryTypes.v) list the public types. [after T g pre post]
    is what the calls [post] return on an object constructed in memory [g] after the
    calls [pre]. [hcalls] / [xcalls] are the admissible call sequences: any calls with byte
    arguments; for the XOF types positive squeeze lengths and no absorb after squeeze. *)
From Verif Require Import Base Hasher HasherSpec Library LibraryProof XLibraryProof LibraryTypes LibraryTypesProof LibraryMore
  Objects ObjectsProof MdState Md5 Sha2 Sha3 Kmac Shake.

(** ** C01, C02: absorb *)

(** Any sequence of absorb calls of any form equals one absorb of any form. *)
Theorem C01_chunking P (T : htype P) : library T -> forall g pre l f post,
  f <> FBadStream -> ht_mem_ok T g -> hcalls T pre -> Forall (fun p => is_bytes (snd p)) l -> hcalls T post ->
  exists r, after T g (pre ++ map ab l) post = Ok r /\
    after T g (pre ++ [HBase (Absorb f (stream_bytes l))]) post = Ok r.
Proof. intros H. destruct (library_good P T H) as [S G]. exact (absorb_forms G). Qed.
Theorem C01_chunking_xof P (T : xtype P) : xlibrary T -> forall g pre l f post,
  f <> FBadStream -> xt_mem_ok T g -> xcalls T pre -> xflag T pre = false ->
  Forall (fun p => is_bytes (snd p)) l -> xcalls_from T false post ->
  exists r, xafter T g (pre ++ map xab l) post = Ok r /\
    xafter T g (pre ++ [XBase (Absorb f (stream_bytes l))]) post = Ok r.
Proof. intros H. destruct (xlibrary_good P T H) as [S G]. exact (xabsorb_forms G). Qed.
Theorem C01_empty_absorb P (T : htype P) : library T -> forall g pre f post,
  ht_mem_ok T g -> hcalls T pre -> hcalls T post ->
  exists r, after T g (pre ++ [HBase (Absorb f [])]) post = Ok r /\ after T g pre post = Ok r.
Proof. intros H. destruct (library_good P T H) as [S G]. exact (absorb_nothing G). Qed.
Theorem C01_empty_absorb_xof P (T : xtype P) : xlibrary T -> forall g pre f post,
  xt_mem_ok T g -> xcalls T pre -> xflag T pre = false -> xcalls_from T false post ->
  exists r, xafter T g (pre ++ [XBase (Absorb f [])]) post = Ok r /\ xafter T g pre post = Ok r.
Proof. intros H. destruct (xlibrary_good P T H) as [S G]. exact (xabsorb_nothing G). Qed.

(** Two forms over the same bytes. *)
Theorem C02_absorb_forms P (T : htype P) : library T -> forall g pre f1 f2 d post,
  f1 <> FBadStream -> f2 <> FBadStream -> ht_mem_ok T g -> hcalls T pre -> is_bytes d -> hcalls T post ->
  exists r, after T g (pre ++ [HBase (Absorb f1 d)]) post = Ok r /\
    after T g (pre ++ [HBase (Absorb f2 d)]) post = Ok r.
Proof.
  intros H g pre f1 f2 d post H1 H2 Hg Hp Hd Hq.
  destruct (C01_chunking P T H g pre [(f1, d)] f2 post H2 Hg Hp (Forall_cons (f1, d) Hd (Forall_nil _)) Hq) as (r & E1 & E2).
  exists r. split; [exact E1|]. unfold stream_bytes in E2. cbn [flat_map fst snd] in E2. rewrite app_nil_r in E2.
  destruct f1; try contradiction; exact E2.
Qed.
Theorem C02_absorb_forms_xof P (T : xtype P) : xlibrary T -> forall g pre f1 f2 d post,
  f1 <> FBadStream -> f2 <> FBadStream -> xt_mem_ok T g -> xcalls T pre -> xflag T pre = false ->
  is_bytes d -> xcalls_from T false post ->
  exists r, xafter T g (pre ++ [XBase (Absorb f1 d)]) post = Ok r /\
    xafter T g (pre ++ [XBase (Absorb f2 d)]) post = Ok r.
Proof.
  intros H g pre f1 f2 d post H1 H2 Hg Hp Hf Hd Hq.
  destruct (C01_chunking_xof P T H g pre [(f1, d)] f2 post H2 Hg Hp Hf (Forall_cons (f1, d) Hd (Forall_nil _)) Hq) as (r & E1 & E2).
  exists r. split; [exact E1|]. unfold stream_bytes in E2. cbn [flat_map fst snd] in E2. rewrite app_nil_r in E2.
  destruct f1; try contradiction; exact E2.
Qed.
(* the hypotheses hold of a history with absorbed data, a digest and a reset *)
Example C01_example :
  library md5_type /\ ht_mem_ok md5_type (mkst [1; 2] (repeat 7 64) 5 6) /\
  hcalls md5_type [HBase (Absorb FStr [1; 2; 3]); HHexDigest; HBase (Reset true); HBase (Absorb FIter [255])] /\
  Forall (fun p => is_bytes (snd p)) [(FPtr, [1; 2]); (FStream, []); (FIter, repeat 9 100)].
Proof.
  split; [exact lib_md5|]. split; [reflexivity|]. unfold hcalls, is_bytes.
  split; repeat (apply Forall_cons || apply Forall_nil || split); cbn; try reflexivity.
Qed.
Example C01_example_xof :
  xlibrary (cshake_type 128) /\ xt_mem_ok (cshake_type 128) (mkst [1; 2] (repeat 7 168) 5 6, true, 9) /\
  xcalls (cshake_type 128) [XBase (SetParam CsName [1]); XSqueezeBuf 5; XBase (Reset false); XBase (Absorb FStr [1])] /\
  xflag (cshake_type 128) [XBase (SetParam CsName [1]); XSqueezeBuf 5; XBase (Reset false); XBase (Absorb FStr [1])] = false.
Proof.
  split; [exact xlib_cshake128|]. split; [reflexivity|]. split; [|reflexivity]. unfold xcalls. cbn.
  repeat split; try lia; try discriminate; repeat constructor.
Qed.

(** ** C03, C52: digest is an observer *)
Theorem C03_digest_observes P (T : htype P) : library T -> forall g pre obs pre2 post,
  ht_mem_ok T g -> hcalls T pre -> hcalls T pre2 -> hcalls T post -> forallb is_digest obs = true ->
  exists r, after T g (pre ++ obs ++ pre2) post = Ok r /\ after T g (pre ++ pre2) post = Ok r.
Proof. intros H. destruct (library_good P T H) as [S G]. exact (digests_observe G). Qed.
Theorem C03_digest_repeats P (T : htype P) : library T -> forall g pre obs d,
  ht_mem_ok T g -> hcalls T pre -> forallb is_digest obs = true -> is_digest d = true ->
  exists b, after T g (pre ++ obs) [d] = Ok [b] /\ after T g pre [d] = Ok [b].
Proof. intros H. destruct (library_good P T H) as [S G]. exact (digest_repeat G). Qed.
Theorem C52_absorb_continues P (T : htype P) : library T -> forall g pre ops d,
  ht_mem_ok T g -> hcalls T pre -> hcalls T ops -> forallb absorb_or_digest ops = true -> is_digest d = true ->
  exists b, after T g (pre ++ ops) [d] = Ok [b] /\ after T g (pre ++ [HBase (Absorb FPtr (pieces ops))]) [d] = Ok [b].
Proof. intros H. destruct (library_good P T H) as [S G]. exact (pieces_continue G). Qed.
Example C52_example : forallb (absorb_or_digest (P := md5)) [HDigestIter; HBase (Absorb FStr [1]); HHexDigest; HDigestBuf [1]] = true.
Proof. reflexivity. Qed.

(** ** C04, C05: reset *)
Theorem C04_reset_fresh P (T : htype P) : library T -> forall g pre post,
  ht_mem_ok T g -> hcalls T pre -> hcalls T post ->
  exists r, after T g (pre ++ [HBase (Reset false)]) post = Ok r /\ after T g (setters pre) post = Ok r.
Proof. intros H. destruct (library_good P T H) as [S G]. exact (reset_fresh G). Qed.
Theorem C04_reset_fresh_xof P (T : xtype P) : xlibrary T -> forall g pre post,
  xt_mem_ok T g -> xcalls T pre -> xcalls_from T false post ->
  exists r, xafter T g (pre ++ [XBase (Reset false)]) post = Ok r /\ xafter T g (xsetters pre) post = Ok r.
Proof. intros H. destruct (xlibrary_good P T H) as [S G]. exact (xreset_fresh G). Qed.
(** Full statement: without the premise on [ht_clr]; that is false for the types listed
    in the C05 refutations, which are those with [ht_clr T = false]. *)
Theorem C05_reset_true_fresh_partial P (T : htype P) : library T -> forall g pre post,
  ht_clr T = true -> ht_mem_ok T g -> hcalls T pre -> hcalls T post ->
  exists r, after T g (pre ++ [HBase (Reset true)]) post = Ok r /\ after T g [] post = Ok r.
Proof. intros H. destruct (library_good P T H) as [S G]. exact (reset_true_fresh G). Qed.
Theorem C05_reset_true_fresh_xof_partial P (T : xtype P) : xlibrary T -> forall g pre post,
  xt_clr T = true -> xt_mem_ok T g -> xcalls T pre -> xcalls_from T false post ->
  exists r, xafter T g (pre ++ [XBase (Reset true)]) post = Ok r /\ xafter T g [] post = Ok r.
Proof. intros H. destruct (xlibrary_good P T H) as [S G]. exact (xreset_true_fresh G). Qed.

(** ** C06, C07: forms of the output *)
Theorem C06_digest_buffer P (T : htype P) : library T -> forall g pre, ht_mem_ok T g -> hcalls T pre ->
  exists d, length d = ht_size T /\ after T g pre [HDigestIter] = Ok [OBytes d] /\
    forall buf, after T g pre [HDigestBuf buf] =
      Ok [if (length buf <? ht_size T)%nat then OThrow else OBytes (d ++ skipn (ht_size T) buf)].
Proof.
  intros H g pre Hg Hp. destruct (library_good P T H) as [S G].
  destruct (digest_forms G g pre Hg Hp) as (d & D1 & D2 & D3 & D4 & D5). eauto.
Qed.
Theorem C07_hexdigest P (T : htype P) : library T -> forall g pre, ht_mem_ok T g -> hcalls T pre ->
  exists d h, after T g pre [HDigestIter] = Ok [OBytes d] /\ after T g pre [HHexDigest] = Ok [OBytes h] /\
    is_bytes d /\ h = spec_hex d /\ length h = (2 * ht_size T)%nat /\ Forall is_hex_char h /\ hex_decode h = d.
Proof.
  intros H g pre Hg Hp. destruct (library_good P T H) as [S G].
  destruct (digest_forms G g pre Hg Hp) as (d & D1 & D2 & D3 & D4 & D5).
  exists d, (spec_hex d). destruct (spec_hex_chars d D2) as [C1 C2]. rewrite D1 in C2.
  repeat (split; auto using hex_decode_ok).
Qed.
Theorem C07_hexsqueeze P (T : xtype P) : xlibrary T -> forall g pre n, xt_mem_ok T g -> xcalls T pre -> (0 < n)%nat ->
  exists b h, xafter T g pre [XSqueezeBuf n] = Ok [OBytes b] /\ xafter T g pre [XSqueezeIter n] = Ok [OBytes b] /\
    xafter T g pre [XHexSqueeze n] = Ok [OBytes h] /\ length b = n /\ is_bytes b /\
    h = spec_hex b /\ length h = (2 * n)%nat /\ Forall is_hex_char h /\ hex_decode h = b.
Proof.
  intros H g pre n Hg Hp Hn. destruct (xlibrary_good P T H) as [S G].
  destruct (squeeze_forms G g pre n Hg Hp Hn) as (d & D1 & D2 & D3 & D4 & D5).
  exists d, (spec_hex d). destruct (spec_hex_chars d D2) as [C1 C2]. rewrite D1 in C2.
  repeat (split; auto using hex_decode_ok).
Qed.
Theorem C07_hex_injective a b : is_bytes a -> is_bytes b -> (spec_hex a = spec_hex b <-> a = b).
Proof. exact (spec_hex_inj a b). Qed.
Example C07_example : spec_hex [0; 1; 171; 255] = [48; 48; 48; 49; 97; 98; 102; 102].
Proof. reflexivity. Qed.

(** ** C08, C09: memory *)

(** No call is undefined behaviour: every array access in the models is checked. *)
Theorem C08_no_undefined_behaviour P (T : htype P) : library T -> forall g pre post,
  ht_mem_ok T g -> hcalls T pre -> hcalls T post ->
  exists r, after T g pre post = Ok r /\ length r = length post.
Proof. intros H. destruct (library_good P T H) as [S G]. exact (never_undefined G). Qed.
Theorem C08_no_undefined_behaviour_xof P (T : xtype P) : xlibrary T -> forall g pre post,
  xt_mem_ok T g -> xcalls T pre -> xcalls_from T (xflag T pre) post ->
  exists r, xafter T g pre post = Ok r /\ length r = length post.
Proof. intros H. destruct (xlibrary_good P T H) as [S G]. exact (xnever_undefined G). Qed.
Theorem C09_memory_irrelevant P (T : htype P) : library T -> forall g g' pre post,
  ht_mem_ok T g -> ht_mem_ok T g' -> hcalls T pre -> hcalls T post -> after T g pre post = after T g' pre post.
Proof. intros H. destruct (library_good P T H) as [S G]. exact (memory_irrelevant G). Qed.
Theorem C09_memory_irrelevant_xof P (T : xtype P) : xlibrary T -> forall g g' pre post,
  xt_mem_ok T g -> xt_mem_ok T g' -> xcalls T pre -> xcalls_from T (xflag T pre) post ->
  xafter T g pre post = xafter T g' pre post.
Proof. intros H. destruct (xlibrary_good P T H) as [S G]. exact (xmemory_irrelevant G). Qed.

(** ** C11, C44: squeezing *)
Theorem C11_squeeze_pieces P (T : xtype P) : xlibrary T -> forall g pre ns,
  xt_mem_ok T g -> xcalls T pre -> ns <> [] -> Forall (fun n => (0 < n)%nat) ns ->
  exists l b, xafter T g pre (map XSqueezeBuf ns) = Ok l /\
    xafter T g pre [XSqueezeBuf (total ns)] = Ok [OBytes b] /\ out_concat l = b.
Proof. intros H. destruct (xlibrary_good P T H) as [S G]. exact (squeeze_pieces G). Qed.
Theorem C44_xof_prefix P (T : xtype P) : xlibrary T -> forall g pre n m,
  xt_mem_ok T g -> xcalls T pre -> (0 < n <= m)%nat ->
  exists b c, xafter T g pre [XSqueezeBuf n] = Ok [OBytes b] /\ xafter T g pre [XSqueezeBuf m] = Ok [OBytes (b ++ c)].
Proof. intros H. destruct (xlibrary_good P T H) as [S G]. exact (squeeze_prefix G). Qed.

(** ** C13: run-time and compile-time sizes *)
Theorem C13_static_same P (T T' : htype P) : static_pair T T' -> forall g g' pre post,
  ht_mem_ok T g -> ht_mem_ok T' g' -> hcalls T pre -> hcalls T post ->
  ht_size T = ht_size T' /\ after T g pre post = after T' g' pre post.
Proof. exact (static_same P T T'). Qed.
Example C13_example : static_pair (sha512_type 256) (sha512_static_type 256).
Proof. apply pair_sha512. repeat split; discriminate. Qed.

(** ** C38, C39: parameters *)
Theorem C38_set_throws P (T : htype P) : library T -> forall g pre q v,
  ht_mem_ok T g -> hcalls T pre -> is_bytes v ->
  after T g pre [HBase (SetParam q v)] = Ok [if ht_accepts T q v then ODone else OThrow].
Proof. intros H. destruct (library_good P T H) as [S G]. exact (set_throws G). Qed.
Theorem C38_set_throws_xof P (T : xtype P) : xlibrary T -> forall g pre q v,
  xt_mem_ok T g -> xcalls T pre -> is_bytes v ->
  xafter T g pre [XBase (SetParam q v)] = Ok [if xt_accepts T q v then ODone else OThrow].
Proof. intros H. destruct (xlibrary_good P T H) as [S G]. exact (xset_throws G). Qed.
Theorem C38_rejected_unchanged P (T : htype P) : library T -> forall g pre q v post,
  ht_mem_ok T g -> hcalls T pre -> is_bytes v -> hcalls T post -> ht_accepts T q v = false ->
  exists r, after T g (pre ++ [HBase (SetParam q v)]) post = Ok r /\ after T g pre post = Ok r.
Proof. intros H. destruct (library_good P T H) as [S G]. exact (rejected_set G). Qed.
Theorem C38_rejected_unchanged_xof P (T : xtype P) : xlibrary T -> forall g pre q v post,
  xt_mem_ok T g -> xcalls T pre -> is_bytes v -> xcalls_from T (xflag T pre) post -> xt_accepts T q v = false ->
  exists r, xafter T g (pre ++ [XBase (SetParam q v)]) post = Ok r /\ xafter T g pre post = Ok r.
Proof. intros H. destruct (xlibrary_good P T H) as [S G]. exact (xrejected_set G). Qed.
Theorem C39_set_restarts P (T : htype P) : library T -> forall g pre q v post,
  ht_mem_ok T g -> hcalls T pre -> is_bytes v -> hcalls T post -> ht_accepts T q v = true ->
  exists r, after T g (pre ++ [HBase (SetParam q v)]) post = Ok r /\
    after T g (setters pre ++ [HBase (SetParam q v)]) post = Ok r.
Proof. intros H. destruct (library_good P T H) as [S G]. exact (set_restarts G). Qed.
Theorem C39_set_restarts_xof P (T : xtype P) : xlibrary T -> forall g pre q v post,
  xt_mem_ok T g -> xcalls T pre -> is_bytes v -> xcalls_from T false post -> xt_accepts T q v = true ->
  exists r, xafter T g (pre ++ [XBase (SetParam q v)]) post = Ok r /\
    xafter T g (xsetters pre ++ [XBase (SetParam q v)]) post = Ok r.
Proof. intros H. destruct (xlibrary_good P T H) as [S G]. exact (xset_restarts G). Qed.
Theorem C39_setters_commute P (T : htype P) : library T -> forall g pre q1 v1 q2 v2 post,
  ht_mem_ok T g -> hcalls T pre -> hcalls T post -> is_bytes v1 -> is_bytes v2 -> q1 <> q2 ->
  ht_accepts T q1 v1 = true -> ht_accepts T q2 v2 = true ->
  exists r, after T g (pre ++ [HBase (SetParam q1 v1); HBase (SetParam q2 v2)]) post = Ok r /\
    after T g (pre ++ [HBase (SetParam q2 v2); HBase (SetParam q1 v1)]) post = Ok r.
Proof. intros H. destruct (library_good P T H) as [S G]. exact (setters_commute G). Qed.
Theorem C39_setters_commute_xof P (T : xtype P) : xlibrary T -> forall g pre q1 v1 q2 v2 post,
  xt_mem_ok T g -> xcalls T pre -> xcalls_from T false post -> is_bytes v1 -> is_bytes v2 -> q1 <> q2 ->
  xt_accepts T q1 v1 = true -> xt_accepts T q2 v2 = true ->
  exists r, xafter T g (pre ++ [XBase (SetParam q1 v1); XBase (SetParam q2 v2)]) post = Ok r /\
    xafter T g (pre ++ [XBase (SetParam q2 v2); XBase (SetParam q1 v1)]) post = Ok r.
Proof. intros H. destruct (xlibrary_good P T H) as [S G]. exact (xsetters_commute G). Qed.
(** The empty value is treated in C48. *)
Theorem C39_last_set_wins P (T : htype P) : library T -> forall g pre q v1 v2 post,
  ht_mem_ok T g -> hcalls T pre -> hcalls T post -> is_bytes v1 -> is_bytes v2 -> v2 <> [] -> ht_accepts T q v2 = true ->
  exists r, after T g (pre ++ [HBase (SetParam q v1); HBase (SetParam q v2)]) post = Ok r /\
    after T g (pre ++ [HBase (SetParam q v2)]) post = Ok r.
Proof. intros H. destruct (library_good P T H) as [S G]. exact (last_set_wins G). Qed.
Theorem C39_last_set_wins_xof P (T : xtype P) : xlibrary T -> forall g pre q v1 v2 post,
  xt_mem_ok T g -> xcalls T pre -> xcalls_from T false post -> is_bytes v1 -> is_bytes v2 -> v2 <> [] -> xt_accepts T q v2 = true ->
  exists r, xafter T g (pre ++ [XBase (SetParam q v1); XBase (SetParam q v2)]) post = Ok r /\
    xafter T g (pre ++ [XBase (SetParam q v2)]) post = Ok r.
Proof. intros H. destruct (xlibrary_good P T H) as [S G]. exact (xlast_set_wins G). Qed.
Example C39_example : ht_accepts (kmac_type 128 256) KmKey [1; 2] = true /\ KmKey <> KmCustomization.
Proof. split; [reflexivity|discriminate]. Qed.

(** ** C40, C41: several objects *)

(** Objects of any types ([M] maps a type to its machine, see [hash_machine] and
    [xof_machine]); the calls on different objects are interleaved in any order. *)
Theorem C40_objects_independent kind (kind_eq : forall a b : kind, {a = b} + {a <> b}) M es s s' l :
  forallb (is_call kind M) es = true -> events_run kind kind_eq M s es = Ok (s', l) ->
  forall k i, m_run (M k) (s k i) (calls_on kind kind_eq M k i es) = Ok (s' k i, outs_on kind kind_eq M k i es l).
Proof. exact (objects_independent kind kind_eq M es s s' l). Qed.
Theorem C40_objects_total kind (kind_eq : forall a b : kind, {a = b} + {a <> b}) M es (s : store kind M) :
  forallb (is_call kind M) es = true ->
  (forall k i, exists v l, m_run (M k) (s k i) (calls_on kind kind_eq M k i es) = Ok (v, l)) ->
  exists s' l, events_run kind kind_eq M s es = Ok (s', l).
Proof. exact (objects_total kind kind_eq M es s). Qed.
(** Const calls on one shared object: the results do not depend on the other const calls
    made before. *)
Theorem C40_const_calls P (T : htype P) : library T -> forall g pre obs d,
  ht_mem_ok T g -> hcalls T pre -> forallb is_digest obs = true -> is_digest d = true ->
  exists b, after T g (pre ++ obs) [d] = Ok [b] /\ after T g pre [d] = Ok [b].
Proof. exact (C03_digest_repeats P T). Qed.
Theorem C41_copies_independent kind (kind_eq : forall a b : kind, {a = b} + {a <> b}) M es (s s' : store kind M) l :
  events_run kind kind_eq M s es = Ok (s', l) ->
  map Ok l = expected kind kind_eq M (start kind M s) es.
Proof. exact (copies_independent kind kind_eq M es _ s s' l (follows_start kind M s)). Qed.
(* three objects of two types; one is copied in the middle of a message *)
Definition C41_machines (b : bool) : machine := if b then hash_machine md5 else hash_machine sha256_family.
Definition C41_store : option (store bool C41_machines) :=
  match md5_init (mkst [] (repeat 7 64) 5 6), sha256_init (mk2 (mkst [] (repeat 7 64) 5 6) 256) with
  | Ok a, Ok b => Some (fun k => match k return nat -> m_st (C41_machines k) with true => fun _ => a | false => fun _ => b end)
  | _, _ => None
  end.
Example C41_example : match C41_store with
  | Some s =>
    match events_run bool Bool.bool_dec C41_machines s
      [ECall (M := C41_machines) true 0%nat (HBase (Absorb FPtr [97])); ECopy true 0%nat 1%nat;
       ECall (M := C41_machines) false 0%nat (HBase (Absorb FPtr [97]));
       ECall (M := C41_machines) true 1%nat (HBase (Absorb FPtr [98; 99])); ECall (M := C41_machines) true 0%nat HDigestIter;
       ECall (M := C41_machines) true 1%nat HDigestIter] with
    | Ok (_, l) => out_concat l = [0x0c; 0xc1; 0x75; 0xb9; 0xc0; 0xf1; 0xb6; 0xa8; 0x31; 0xc3; 0x99; 0xe2; 0x69; 0x77; 0x26; 0x61;
       0x90; 0x01; 0x50; 0x98; 0x3c; 0xd2; 0x4f; 0xb0; 0xd6; 0x96; 0x3f; 0x7d; 0x28; 0xe1; 0x7f; 0x72]
    | _ => False
    end
  | None => False end.
Proof. vm_compute. reflexivity. Qed.

(** One traversal for all theorems of this file. *)
Definition api_theorems :=
  (@C01_chunking,
   @C01_chunking_xof,
   @C01_empty_absorb,
   @C01_empty_absorb_xof,
   @C02_absorb_forms,
   @C02_absorb_forms_xof,
   @C03_digest_observes,
   @C03_digest_repeats,
   @C52_absorb_continues,
   @C04_reset_fresh,
   @C04_reset_fresh_xof,
   @C05_reset_true_fresh_partial,
   @C05_reset_true_fresh_xof_partial,
   @C06_digest_buffer,
   @C07_hexdigest,
   @C07_hexsqueeze,
   @C07_hex_injective,
   @C08_no_undefined_behaviour,
   @C08_no_undefined_behaviour_xof,
   @C09_memory_irrelevant,
   @C09_memory_irrelevant_xof,
   @C11_squeeze_pieces,
   @C44_xof_prefix,
   @C13_static_same,
   @C38_set_throws,
   @C38_set_throws_xof,
   @C38_rejected_unchanged,
   @C38_rejected_unchanged_xof,
   @C39_set_restarts,
   @C39_set_restarts_xof,
   @C39_setters_commute,
   @C39_setters_commute_xof,
   @C39_last_set_wins,
   @C39_last_set_wins_xof,
   @C40_objects_independent,
   @C40_objects_total,
   @C40_const_calls,
   @C41_copies_independent).
Print Assumptions api_theorems.
