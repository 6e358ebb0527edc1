(* Names as URIs: core/Name.py from_uri and as_uri, with the parts of the
   standard library they use, and the names of link files (TreeIO.py).
   A Python str is the list of its code points.  UnicodeEncodeError and
   UnicodeDecodeError are subclasses of ValueError and appear as ValueError. *)
From Coq Require Import ZArith List Bool.
From Verif Require Import Py Tlv Core Store.
Import ListNotations.
Open Scope Z_scope.

Definition text := list Z.

(* ---------------- UTF-8 (Python's str.encode and bytes.decode) ---------------- *)

(* code points that can be encoded: all but the surrogates *)
Definition scalar (c : Z) : bool := ((0 <=? c) && (c <? 55296)) || ((57344 <=? c) && (c <? 1114112)).
Definition enc1 (c : Z) : bytes :=
  if c <? 128 then [c]
  else if c <? 2048 then [192 + c / 64; 128 + c mod 64]
  else if c <? 65536 then [224 + c / 4096; 128 + (c / 64) mod 64; 128 + c mod 64]
  else [240 + c / 262144; 128 + (c / 4096) mod 64; 128 + (c / 64) mod 64; 128 + c mod 64].
Definition utf8_encode (t : text) : res bytes :=
  if forallb scalar t then Ok (flat_map enc1 t) else Err ValueError.

Definition cont (b : Z) : bool := (128 <=? b) && (b <? 192).
(* strict decoding: no overlong forms, no surrogates *)
Fixpoint utf8_decode (b : bytes) : res text :=
  match b with
  | [] => Ok []
  | x :: r =>
    if (0 <=? x) && (x <? 128) then t <- utf8_decode r ;; Ok (x :: t)
    else match r with
    | [] => Err ValueError
    | y :: r =>
      if negb (cont y) then Err ValueError
      else if (194 <=? x) && (x <? 224) then
        t <- utf8_decode r ;; Ok ((x - 192) * 64 + (y - 128) :: t)
      else match r with
      | [] => Err ValueError
      | z :: r =>
        if negb (cont z) then Err ValueError
        else if (224 <=? x) && (x <? 240) then
          let c := (x - 224) * 4096 + (y - 128) * 64 + (z - 128) in
          if (2048 <=? c) && scalar c then t <- utf8_decode r ;; Ok (c :: t) else Err ValueError
        else match r with
        | [] => Err ValueError
        | w :: r =>
          if negb (cont w) then Err ValueError
          else if (240 <=? x) && (x <? 245) then
            let c := (x - 240) * 262144 + (y - 128) * 4096 + (z - 128) * 64 + (w - 128) in
            if (65536 <=? c) && scalar c then t <- utf8_decode r ;; Ok (c :: t) else Err ValueError
          else Err ValueError
        end
      end
    end
  end.

(* ---------------- urllib.parse.urlparse ---------------- *)

(* t.split(sep, 1)[0] and what follows it, the separator included *)
Fixpoint cut (stop : Z -> bool) (t : text) : text * text :=
  match t with
  | [] => ([], [])
  | c :: r => if stop c then ([], t) else let '(a, b) := cut stop r in (c :: a, b)
  end.
Fixpoint lstrip (t : text) : text :=
  match t with c :: r => if c <=? 32 then lstrip r else t | [] => [] end.
Definition is_alpha (c : Z) : bool := ((65 <=? c) && (c <=? 90)) || ((97 <=? c) && (c <=? 122)).
(* letters, digits, "+", "-", "." *)
Definition scheme_char (c : Z) : bool :=
  is_alpha c || ((48 <=? c) && (c <=? 57)) || (c =? 43) || (c =? 45) || (c =? 46).
Definition lower (c : Z) : Z := if (65 <=? c) && (c <=? 90) then c + 32 else c.

(* what follows an authority part "//host" *)
Definition skip_authority (t : text) : text :=
  match t with
  | 47 :: 47 :: a => snd (cut (fun c => (c =? 47) || (c =? 63) || (c =? 35)) a)
  | _ => t
  end.

(* The scheme and the path of urlparse(u) (Python 3.12: urlsplit; parameters
   are split off only for schemes other than ccnx).  Simplified: the checks of
   the authority part (unbalanced brackets and characters that normalise to
   separators raise ValueError) are left out; without "//" there is none. *)
Definition url_split (u : text) : text * text :=
  let u := filter (fun c => negb ((c =? 9) || (c =? 10) || (c =? 13))) (lstrip u) in
  let '(s, r) := cut (fun c => c =? 58) u in
  let '(scheme, rest) :=
    match r, s with
    | _ :: r', c :: _ => if is_alpha c && forallb scheme_char s then (map lower s, r') else ([], u)
    | _, _ => ([], u)
    end in
  (scheme, fst (cut (fun c => c =? 63) (fst (cut (fun c => c =? 35) (skip_authority rest))))).

(* ---------------- pathlib.PurePath(p).parts (POSIX) ---------------- *)

(* p.split('/') *)
Fixpoint split_slash (p : text) : list text :=
  match p with
  | [] => [[]]
  | c :: r =>
    if c =? 47 then [] :: split_slash r
    else match split_slash r with s :: l => (c :: s) :: l | [] => [[c]] end
  end.
(* the root ("/", or "//" for exactly two slashes), if any, and the components
   that are not empty and not "." *)
Definition path_parts (p : text) : list text :=
  let keep := filter (fun s => negb (beqb s [] || beqb s [46])) in
  match p with
  | 47 :: 47 :: 47 :: _ => [47] :: keep (split_slash p)
  | 47 :: 47 :: _ => [47; 47] :: keep (split_slash p)
  | 47 :: _ => [47] :: keep (split_slash p)
  | _ => keep (split_slash p)
  end.

(* ---------------- Name.from_uri, core/Name.py:190-210 ---------------- *)

(* "ccnx" *)
Definition ccnx : text := [99; 99; 110; 120].
(* core/Name.py:206-208, one turn of the loop *)
Definition uri_segment (s : text) : res comp :=
  b <- utf8_encode s ;;
  let c := mkComp T_NAMESEGMENT KBytes b in
  _ <- comp_tlv c ;; Ok c.
(* None is the argument None *)
Definition from_uri (u : option text) : res (option name) :=
  match u with
  | None => Ok None
  | Some u =>
    let '(scheme, p) := url_split u in
    _ <- guard (beqb scheme ccnx) AssertionError ;;
    n <- mapM uri_segment (tl (path_parts p)) ;;
    _ <- name_tlv n ;;
    Ok (Some n)
  end.

(* ---------------- Name.as_uri, core/Name.py:118-120 ---------------- *)

(* str(n) for n >= 0, in decimal *)
Fixpoint dec_fuel (fuel : nat) (n : Z) (acc : text) : text :=
  match fuel with
  | O => acc
  | S f => let acc := 48 + n mod 10 :: acc in if n <? 10 then acc else dec_fuel f (n / 10) acc
  end.
Definition dec (n : Z) : text := dec_fuel (S (Z.to_nat (Z.log2 n))) n [].

(* core/Name.py:25 *)
Definition T_IPID : Z := 2.
Definition t_chunk : text := [67; 104; 117; 110; 107; 73; 100; 61].                  (* ChunkId= *)
Definition t_name : text := [78; 97; 109; 101; 61].                                  (* Name= *)
Definition t_manifest : text := [77; 97; 110; 105; 102; 101; 115; 116; 73; 100; 61]. (* ManifestId= *)

Section Repr.
(* the repr of IPID segments and of other types of TLVs, core/Name.py:64-66:
   Python's rendering of the value *)
Variable other_repr : comp -> text.

(* core/Name.py:56-66 __repr__; an array has no decode method *)
Definition comp_repr (c : comp) : res text :=
  if c_type c =? T_CHUNKID then
    _ <- int_text (array_to_number (c_val c)) ;; Ok (t_chunk ++ dec (array_to_number (c_val c)))
  else if c_type c =? T_NAMESEGMENT then
    match c_kind c with
    | KArray => Err AttributeError
    | KBytes => t <- utf8_decode (c_val c) ;; Ok (t_name ++ t)
    end
  else if c_type c =? T_MANIFESTID then
    _ <- int_text (array_to_number (c_val c)) ;; Ok (t_manifest ++ dec (array_to_number (c_val c)))
  else Ok (other_repr c).

(* sep.join(l) *)
Fixpoint join (sep : Z) (l : list text) : text :=
  match l with
  | [] => []
  | [t] => t
  | t :: l' => t ++ sep :: join sep l'
  end.
(* core/Name.py:118-120; Name(None) raises TypeError and is not modelled *)
Definition as_uri (n : name) : res text :=
  l <- mapM comp_repr n ;; Ok (ccnx ++ 58 :: 47 :: join 47 l).

(* The path of the URI that names a link file, TreeIO.py:42-43: the argument
   of Store.link_file. *)
Definition name_uri_path (n : name) : res bytes :=
  u <- as_uri n ;; Ok (snd (url_split u)).
End Repr.
