(* ManifestTree on any input: something with a read method that may give short
   results or raise, or a FileMetadata of an earlier run, and a name context of
   its own or one that has been used before. *)
From Coq Require Import ZArith List Bool.
From Verif Require Import Py Float Tlv Core Flic Crypto Optimizer Tree.
Import ListNotations.
Open Scope Z_scope.

(* What successive calls of data_input.read(n) do: return bytes or raise; at the
   end of the list they return b"" for ever.  A read that returns None (a stream
   that does not block) is left out. *)
Definition reader := Z -> list (res bytes).

(* The packet output and the _next_chunk_id of the SchemaImpl
   (flic/name_constructor/SchemaImpl.py:39-40) *)
Record sst := mkSst { ss_out : list packet; ss_next : Z }.

(* A NameConstructorContext with the chunk counter of its data_schema_impl
   (NameConstructorContext.py:26-33); the counter of the manifest_schema_impl is
   never used by the tree builder *)
Record live := mkLive { lc_ctx : nctx; lc_next : Z }.

(* data_input, ManifestTree.py:33, 52-55: an object with read, or a FileMetadata *)
Inductive input := FromReader (rd : reader) | FromMeta (m : list cmeta) (total : Z).

(* packet output and nonces, and the name_context argument; once there is a
   context it is what name_context() returns (ManifestTree.py:60-61) *)
Record wst := mkWst { w_mst : mst; w_ctx : option live }.

Section Stream.
Context (P : prims).
Variable clog : Z -> Z -> Z -> Z.
Variable rnd : nat -> bytes.
Variable now : fl.

(* SchemaImpl.py:46-49 _get_and_increment_next_chunk_id *)
Definition take_id : st sst Z :=
  fun s => (Ok (ss_next s), mkSst (ss_out s) (ss_next s + 1)).

(* SchemaImpl.py:110-119: the final chunk id, the packet, its metadata, put;
   [next] is next_payload_value *)
Definition put_chunk (o : opts P) (i : impl) (n : option name) (id : Z) (cur next : bytes) : st sst cmeta :=
  u <~ lift (uses_final_chunk_id i) ;;
  let fcid := if u && (zlen next =? 0) then Some id else None in
  p <~ lift (data_packet P o n cur fcid) ;;
  h <~ lift (packet_hash (pr_sha P) p) ;;
  _ <~ smod (fun s => mkSst (ss_out s ++ [p]) (ss_next s)) ;;
  sret (mkCM id (zlen cur) h).

(* SchemaImpl.py:98-122, the loop; [cur] is payload_value, [rest] the reads to
   come *)
Fixpoint stream_loop (o : opts P) (i : impl) (cur : bytes) (rest : list (res bytes)) (total : Z) (acc : list cmeta)
  : st sst (list cmeta * Z) :=
  match cur with
  | [] => sret (acc, total)
  | _ =>
    let total := total + zlen cur in
    id <~ take_id ;;
    _ <~ lift (guard (id <=? MAX_CHUNK_ID) ValueError) ;;
    n <~ lift (impl_name i (Some id)) ;;
    match rest with
    | [] => m <~ put_chunk o i n id cur [] ;; sret (acc ++ [m], total)
    | Err e :: _ => lift (Err e)
    | Ok next :: rest =>
        m <~ put_chunk o i n id cur next ;;
        stream_loop o i next rest total (acc ++ [m])
    end
  end.
(* SchemaImpl.py:88-124 chunk_data: chunk_metadata and total_bytes of the
   FileMetadata *)
Definition stream_data (o : opts P) (i : impl) (rd : reader) : st sst (list cmeta * Z) :=
  ps <~ lift (payload_size P o i) ;;
  match rd ps with
  | [] => sret ([], 0)
  | Err e :: _ => lift (Err e)
  | Ok cur :: rest => stream_loop o i cur rest 0 []
  end.

(* ManifestTree.py:56-90: the rest of the constructor, then build() *)
Definition finish (o : opts P) (x : nctx) (meta : list cmeta) (total : Z) : st mst packet :=
  r <~ on_nonce (tree_params P clog rnd now o x (zlen meta) total) ;;
  top <~ build_top P rnd now (env_of P o x meta r) ;;
  build_root P rnd now o x total top.

(* ManifestTree.py:51: the name context; [nc] is SchemaImplFactory._next_nc_id *)
Definition context (o : opts P) (nc : Z) (given : option live) : res live :=
  match given with
  | Some c => Ok c
  | None => x <- nctx_create P o nc ;; Ok (mkLive x 0)
  end.

(* ManifestTree.py:33-90: the constructor, then build().  When the constructor
   raises, the context it may have made is out of reach; here it stays in the
   state. *)
Definition tree_from (o : opts P) (nc : Z) (inp : input) : st wst packet :=
  fun s =>
  match context o nc (w_ctx s) with
  | Err e => (Err e, s)
  | Ok c =>
    match inp with
    | FromMeta meta total =>
        let '(r, m) := finish o (lc_ctx c) meta total (w_mst s) in (r, mkWst m (Some c))
    | FromReader rd =>
        let '(q, ss) := stream_data o (nx_data (lc_ctx c)) rd (mkSst (ms_out (w_mst s)) (lc_next c)) in
        let m := mkMst (ss_out ss) (ms_nonce (w_mst s)) in
        let c' := mkLive (lc_ctx c) (ss_next ss) in
        match q with
        | Err e => (Err e, mkWst m (Some c'))
        | Ok (meta, total) =>
            let '(r, m') := finish o (lc_ctx c) meta total m in (r, mkWst m' (Some c'))
        end
    end
  end.
End Stream.
