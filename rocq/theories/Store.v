(* Packet stores: flic/tree/TreeIO.py without the network writer. *)
From Coq Require Import ZArith List Bool.
From Verif Require Import Py Float Tlv Core Flic Crypto Optimizer Tree.
Import ListNotations.
Open Scope Z_scope.

(* packet.body().name(): core/ContentObject.py:176-177.  No Packet object with an
   Interest body exists (core/Packet.py:83-90 raises TypeError); an Interest
   has no name(), here its name field is used. *)
Definition body_name (p : packet) : option name :=
  match p_body p with BCO c => co_name c | BInterest n => n end.

(* TreeIO.py:91-94 and 244-247: a named packet must have the name asked for.
   [name != other] negates Name.__eq__; None against a Name raises
   AttributeError.  A packet without name is accepted under every name. *)
Definition check_name (asked : option name) (p : packet) : res packet :=
  match body_name p with
  | None => Ok p
  | Some _ =>
      e <- opt_name_eq asked (body_name p) ;;
      _ <- guard e ValueError ;;
      Ok p
  end.

Section Store.
Variable P : prims.

(* ---------------- memory ---------------- *)

(* PacketMemoryWriter: TreeIO.py:77-86, 106-109.  The key of by_hash is a
   HashValue. *)
Record mem := mkMem
  { me_packets : list packet; me_hash : list (hashv * packet);
    me_bytes : Z; me_bytes_hash : Z }.
Definition mem_new : mem := mkMem [] [] 0 0.

(* TreeIO.py:122-127 PacketMemoryWriter.put *)
Definition mem_put (s : mem) (p : packet) : res mem :=
  l <- packet_len p ;;
  h <- packet_hash (pr_sha P) p ;;
  let ps := me_packets s ++ [p] in
  let total := me_bytes s + l in
  match dict_get hashv_key_eqb h (me_hash s) with
  | Some _ => Ok (mkMem ps (me_hash s) total (me_bytes_hash s))
  | None => Ok (mkMem ps (dict_set h p (me_hash s)) total (me_bytes_hash s + l))
  end.
(* TreeIO.py:111-112 __len__; the dict has one binding per key *)
Definition mem_len (s : mem) : Z := zlen (me_hash s).

(* TreeIO.py:82-86: PacketMemoryReader on a list of packets *)
Definition mem_index (d : list (hashv * packet)) (p : packet)
  : res (list (hashv * packet)) :=
  h <- packet_hash (pr_sha P) p ;; Ok (dict_set h p d).
Definition mem_reader (ps : list packet) : res (list (hashv * packet)) :=
  foldM mem_index [] ps.

(* TreeIO.py:88-94 PacketMemoryReader.get; None is never a key.  The
   forwarding hints are not used. *)
Definition mem_get (d : list (hashv * packet)) (nm : option name) (h : option hashv)
  : res packet :=
  match h with
  | None => Err KeyError
  | Some h =>
    match dict_get hashv_key_eqb h d with
    | None => Err KeyError
    | Some p => check_name nm p
    end
  end.

(* ---------------- directory ---------------- *)

(* A path below the store's directory: the names of the subdirectories and of
   the file, as character codes. *)
Definition path := list bytes.
Fixpoint path_eqb (a b : path) : bool :=
  match a, b with
  | [], [] => true
  | x :: a', y :: b' => beqb x y && path_eqb a' b'
  | _, _ => false
  end.
(* The files of the directory.  Not modelled: missing directories,
   permissions, file name limits and other causes of OSError. *)
Definition files := list (path * bytes).

(* bytes.hex() *)
Definition hex_digit (n : Z) : Z := if n <? 10 then 48 + n else 87 + n.
Definition hex (b : bytes) : bytes :=
  flat_map (fun x => [hex_digit (x / 16); hex_digit (x mod 16)]) b.

(* ".link" *)
Definition dot_link : bytes := [46; 108; 105; 110; 107].
(* TreeIO.py:40-45 get_link_name.  [uri_path] is urlparse(name.as_uri()).path,
   the path part of the name's URI, which comes from the standard library; it
   raises UnicodeDecodeError for a name segment that is not UTF-8.  '/' is 47
   and '~' is 126. *)
Variable uri_path : name -> res bytes.
Definition link_file (n : name) : res bytes :=
  u <- uri_path n ;;
  Ok (map (fun c => if c =? 47 then 126 else c) u ++ dot_link).

(* DirectoryBase.to_path, TreeIO.py:130-148, of a hash and of a name.  The
   subdirectories made for nested=True are not modelled as objects. *)
Definition nest (nested : bool) (f : bytes) : path :=
  if nested then [ztake 2 f; ztake 2 (zskip 2 f); f] else [f].
Definition hash_path (nested : bool) (h : hashv) : path := nest nested (hex (h_val h)).
Definition name_path (n : name) : res path := f <- link_file n ;; Ok (nest false f).

(* PacketDirectoryWriter: TreeIO.py:165-177 *)
Record dwriter := mkDW
  { dw_files : files; dw_hash : list (hashv * packet); dw_bytes : Z; dw_bytes_hash : Z;
    dw_nman : Z; dw_ndata : Z; dw_bman : Z; dw_bdata : Z }.
Definition set_files (f : files) (s : dwriter) : dwriter :=
  mkDW f (dw_hash s) (dw_bytes s) (dw_bytes_hash s) (dw_nman s) (dw_ndata s) (dw_bman s)
    (dw_bdata s).
Definition add_bytes (l : Z) (s : dwriter) : dwriter :=
  mkDW (dw_files s) (dw_hash s) (dw_bytes s + l) (dw_bytes_hash s) (dw_nman s) (dw_ndata s)
    (dw_bman s) (dw_bdata s).
(* the constructor arguments *)
Record dwopt := mkDO
  { do_link : bool; do_signer : option (signer P); do_nested : bool; do_now : fl }.

(* Packet.save, core/Packet.py:139-141 *)
Definition save (pth : path) (p : packet) : st dwriter unit :=
  w <~ lift (packet_wire p) ;;
  smod (fun s => set_files (dict_set pth w (dw_files s)) s).

(* TreeIO.py:193-196, 206-214 _create_link, _create_signed_packet *)
Definition create_link_packet (o : dwopt) (p : packet) : res packet :=
  h <- packet_hash (pr_sha P) p ;;
  let l := mkLink (body_name p) None (Some h) in
  c <- create_link_co l (body_name p) None ;;
  sign_content P (match do_signer o with None => SCrc | Some s => s end) (do_now o) c.

(* TreeIO.py:198-204 _write_link; only content objects have is_content_object()
   true.  Link files are never nested. *)
Definition write_link (o : dwopt) (p : packet) : st dwriter unit :=
  match do_link o, p_body p, body_name p with
  | true, BCO _, Some n =>
      k <~ lift (create_link_packet o p) ;;
      pth <~ lift (name_path n) ;;
      save pth k
  | _, _, _ => sret tt
  end.

(* TreeIO.py:183-191, the counters of put; an Interest has no is_manifest *)
Definition count_put (l : Z) (h : hashv) (p : packet) : st dwriter unit :=
  s <~ sget ;;
  match dict_get hashv_key_eqb h (dw_hash s) with
  | Some _ => sret tt
  | None =>
    let d := dict_set h p (dw_hash s) in
    match p_body p with
    | BInterest _ => lift (Err AttributeError)
    | BCO c =>
      if is_manifest c then
        smod (fun s => mkDW (dw_files s) d (dw_bytes s) (dw_bytes_hash s + l) (dw_nman s + 1)
                         (dw_ndata s) (dw_bman s + l) (dw_bdata s))
      else
        smod (fun s => mkDW (dw_files s) d (dw_bytes s) (dw_bytes_hash s + l) (dw_nman s)
                         (dw_ndata s + 1) (dw_bman s) (dw_bdata s + l))
    end
  end.

(* TreeIO.py:179-191 PacketDirectoryWriter.put *)
Definition dir_put (o : dwopt) (p : packet) : st dwriter unit :=
  l <~ lift (packet_len p) ;;
  _ <~ smod (add_bytes l) ;;
  h <~ lift (packet_hash (pr_sha P) p) ;;
  _ <~ save (hash_path (do_nested o) h) p ;;
  _ <~ write_link o p ;;
  count_put l h p.

(* Packet.load, core/Packet.py:131-134; [now] is the clock, which
   packet_deserialize needs for signatures without a signing time *)
Definition load (now : fl) (d : files) (pth : path) : res packet :=
  match dict_get path_eqb pth d with
  | None => Err FileNotFoundError
  | Some b => packet_deserialize now b
  end.

(* TreeIO.py:263-273 _get_by_link.  [filename] is not defined in that method,
   so both uses raise NameError.  A link without payload or without digest
   fails before (AttributeError, TypeError). *)
Definition get_by_link (now : fl) (d : files) (n : name) : res packet :=
  pth <- name_path n ;;
  p <- load now d pth ;;
  match p_body p with
  | BInterest _ => Err AttributeError
  | BCO c =>
    if is_link c then
      match co_payload c with
      | None => Err AttributeError
      | Some b =>
        l <- link_deserialize b ;;
        match l_digest l with
        | None => Err TypeError
        | Some h =>
          _ <- load now d (hash_path false h) ;;
          Err NameError
        end
      end
    else Err NameError
  end.
(* TreeIO.py:249-261 _get_by_name *)
Definition get_by_name (now : fl) (d : files) (n : name) : res packet :=
  match get_by_link now d n with
  | Err FileNotFoundError => Err NotImplementedError
  | r => r
  end.

(* TreeIO.py:237-247 PacketDirectoryReader.get.  Simplified: a hash of no
   bytes names the directory itself and open raises IsADirectoryError; here it
   is a file that does not exist. *)
Definition dir_get (now : fl) (d : files) (nm : option name) (h : option hashv)
  : res packet :=
  match nm, h with
  | Some n, None => get_by_name now d n
  | None, None => Err TypeError
  | _, Some h =>
      p <- load now d (hash_path false h) ;;
      check_name nm p
  end.
End Store.
Arguments do_link {P} d.
Arguments do_signer {P} d.
Arguments do_nested {P} d.
Arguments do_now {P} d.
