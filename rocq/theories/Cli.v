(* The values of the command line options: how apps/cli_utils.py and
   apps/manifest_writer.py turn the texts given by the user into the arguments
   of Apps.v.  argparse itself is not modelled: a record holds for each option
   the text given with it, if any.  Options are converted here in the order in
   which the parser declares them, by argparse in the order of the command
   line; this decides only which of several bad values is reported. *)
From Coq Require Import ZArith List Bool.
From Verif Require Import Py Float Tlv Core Flic Crypto Tree Store Uri Apps.
Import ListNotations.
Open Scope Z_scope.

(* What becomes of an argument: argparse turns TypeError and ValueError of a
   conversion into a usage message and SystemExit(2)
   (argparse.ArgumentParser._get_value); other exceptions pass. *)
Inductive arg (A : Type) := Given (a : A) | Usage | Raised (e : exn).
Arguments Given {A} a.
Arguments Usage {A}.
Arguments Raised {A} e.
Definition convert {A} (r : res A) : arg A :=
  match r with
  | Ok a => Given a
  | Err TypeError | Err ValueError => Usage
  | Err e => Raised e
  end.
Definition abind {A B} (m : arg A) (f : A -> arg B) : arg B :=
  match m with Given a => f a | Usage => Usage | Raised e => Raised e end.
(* an option that may be absent *)
Definition option_arg {A} (conv : text -> arg A) (t : option text) : arg (option A) :=
  match t with None => Given None | Some t => abind (conv t) (fun a => Given (Some a)) end.

(* ---------------- parts of the standard library ---------------- *)

(* C's isspace, as Python uses it for bytes and ASCII texts *)
Definition space (c : Z) : bool := (c =? 32) || ((9 <=? c) && (c <=? 13)).
(* the value of a digit in bases up to 36, _PyLong_DigitValue *)
Definition digit_value (c : Z) : option Z :=
  if (48 <=? c) && (c <=? 57) then Some (c - 48)
  else if (97 <=? c) && (c <=? 122) then Some (c - 87)
  else if (65 <=? c) && (c <=? 90) then Some (c - 55)
  else None.
Definition digit (base c : Z) : option Z :=
  match digit_value c with
  | Some v => if v <? base then Some v else None
  | None => None
  end.

(* bytes.fromhex: pairs of digits, white space between them *)
Fixpoint from_hex (t : text) : res bytes :=
  match t with
  | [] => Ok []
  | c :: r =>
    if space c then from_hex r
    else match digit 16 c, r with
    | Some a, d :: r' =>
      match digit 16 d with
      | Some b => x <- from_hex r' ;; Ok (a * 16 + b :: x)
      | None => Err ValueError
      end
    | _, _ => Err ValueError
    end
  end.

(* The digits of an integer literal, single underscores between them:
   PyLong_FromString.  [start] holds before a digit must follow. *)
Fixpoint digits (base : Z) (start : bool) (t : text) : option (list Z) :=
  match t with
  | [] => if start then None else Some []
  | c :: r =>
    if c =? 95 then (if start then None else digits base true r)
    else match digit base c with
    | Some v => match digits base false r with Some l => Some (v :: l) | None => None end
    | None => None
    end
  end.
Definition number (base : Z) (l : list Z) : Z := fold_left (fun n d => n * base + d) l 0.
Definition decimal_of (l : list Z) : res Z :=
  _ <- guard (zlen l <=? MAX_DIGITS) ValueError ;; Ok (number 10 l).
(* one underscore may follow the prefix *)
Definition skip_underscore (t : text) : text :=
  match t with c :: r => if c =? 95 then r else t | [] => [] end.
Definition prefixed (base : Z) (t : text) : res Z :=
  match digits base true (skip_underscore t) with
  | Some l => Ok (number base l)
  | None => Err ValueError
  end.
(* without sign: base 0 (prefix decides; no leading zeros but in zero) *)
Definition unsigned0 (t : text) : res Z :=
  let plain :=
    match digits 10 true t with
    | Some l =>
      n <- decimal_of l ;;
      _ <- guard (negb (match t with z :: _ => z =? 48 | [] => false end) || (n =? 0)) ValueError ;;
      Ok n
    | None => Err ValueError
    end in
  match t with
  | z :: c :: r =>
    if negb (z =? 48) then plain
    else if (c =? 120) || (c =? 88) then prefixed 16 r
    else if (c =? 111) || (c =? 79) then prefixed 8 r
    else if (c =? 98) || (c =? 66) then prefixed 2 r
    else plain
  | _ => plain
  end.
Definition unsigned10 (t : text) : res Z :=
  match digits 10 true t with
  | Some l => decimal_of l
  | None => Err ValueError
  end.
Fixpoint skip_space (t : text) : text :=
  match t with c :: r => if space c then skip_space r else t | [] => [] end.
Definition strip (t : text) : text := rev (skip_space (rev (skip_space t))).
Definition signed (f : text -> res Z) (t : text) : res Z :=
  match strip t with
  | c :: r =>
    if c =? 45 then n <- f r ;; Ok (- n)
    else if c =? 43 then f r
    else f (c :: r)
  | [] => f []
  end.
(* int(t, 0) and int(t) for a text of ASCII characters.  Simplified: Python
   also takes decimal digits and spaces of other scripts. *)
Definition int0 : text -> res Z := signed unsigned0.
Definition int10 : text -> res Z := signed unsigned10.

(* str.upper(), as far as a comparison with the texts below can see: besides
   the ASCII letters, LATIN SMALL LETTER LONG S and LATIN SMALL LETTER DOTLESS I
   become ASCII letters.  (Other characters become ASCII only in the pairs SS,
   FF, FI, FL, ST or triples, which do not occur in those texts.) *)
Definition upper1 (c : Z) : Z :=
  if (97 <=? c) && (c <=? 122) then c - 32
  else if c =? 383 then 83 else if c =? 305 then 73 else c.
Definition upper : text -> text := map upper1.

(* ---------------- the conversions ---------------- *)

(* apps/cli_utils.py:38-48 _str_to_array: "0x" in front is dropped *)
Definition hex_body (t : text) : option text :=
  match t with z :: x :: r => if (z =? 48) && (x =? 120) then Some r else None | _ => None end.
Definition str_to_array (t : text) : res bytes :=
  from_hex (match hex_body t with Some r => r | None => t end).

Definition t_gcm : text := [71; 67; 77].
Definition t_ccm : text := [67; 67; 77].
(* apps/cli_utils.py:63-65 --aes-mode *)
Definition mode_arg (t : text) : arg aalg :=
  if beqb (upper t) t_gcm then Given GCM
  else if beqb (upper t) t_ccm then Given CCM
  else Usage.

(* "HKDF-SHA256" and so on: crypto/HpkeKdfIdentifiers.py:18-20 *)
Definition t_hkdf : text := [72; 75; 68; 70; 45; 83; 72; 65].
Definition kdf_name (i : kdfid) : text :=
  t_hkdf ++ match i with HkdfSha256 => [50; 53; 54] | HkdfSha384 => [51; 56; 52] | HkdfSha512 => [53; 49; 50] end.
(* apps/cli_utils.py:71-74 --kdf, crypto/HpkeKdfIdentifiers.py:33-38 parse: for
   an unknown name it returns, not raises, a KeyError, which is not among the
   choices *)
Definition kdf_arg (t : text) : arg kdfid :=
  match find (fun i => beqb (kdf_name i) (upper t)) [HkdfSha256; HkdfSha384; HkdfSha512] with
  | Some i => Given i
  | None => Usage
  end.

(* apps/cli_utils.py:66 --key-num, flic/tlvs/KeyNumber.py:31-36: the TLV is
   made at once *)
Definition num_arg (t : text) : arg Z :=
  convert (n <- int0 t ;; _ <- int_tlv T_KEYNUM n ;; Ok n).
(* apps/cli_utils.py:75-77 --kdf-info, flic/tlvs/KdfInfo.py:29-32,
   core/TlvType.py:157-180: hexadecimal after "0x", else the text in UTF-8 *)
Definition info_arg (t : text) : arg bytes :=
  convert (b <- match hex_body t with Some r => from_hex r | None => utf8_encode t end ;;
           _ <- octet_tlv T_KDF_INFO b ;; Ok b).

Section Cli.
Variable P : prims.

(* The options of apps/cli_utils.py:50-81, each with its text; key files stand
   for the keys in them, and for --kdf-uuid there are the bytes of the UUID. *)
Record ctext := mkCT
  { ct_key : option (rsakey P); ct_wrap : option (rsakey P);
    ct_enc : option text; ct_mode : option text; ct_num : option text; ct_salt : option text;
    ct_kdf : option text; ct_info : option text; ct_uuid : option bytes; ct_kdf_salt : option text }.

(* parse_args, and apps/cli_utils.py:96-97: the UUID replaces the text *)
Definition cli_parse (t : ctext) : arg (cargs P) :=
  abind (option_arg (fun x => convert (str_to_array x)) (ct_enc t)) (fun e =>
  abind (option_arg mode_arg (ct_mode t)) (fun m =>
  abind (option_arg num_arg (ct_num t)) (fun n =>
  abind (option_arg (fun x => convert (int0 x)) (ct_salt t)) (fun s =>
  abind (option_arg kdf_arg (ct_kdf t)) (fun k =>
  abind (option_arg info_arg (ct_info t)) (fun i =>
  abind (option_arg (fun x => convert (int0 x)) (ct_kdf_salt t)) (fun ks =>
  Given (mkCA P (ct_key t) (ct_wrap t) e (match m with Some m => m | None => GCM end) n s k
           (match ct_uuid t with Some u => Some u | None => i end) ks)))))))).

(* The options of manifest_writer that are numbers, apps/manifest_writer.py:
   125-126, 130-131 *)
Definition degree_arg : option text -> arg (option Z) := option_arg (fun x => convert (int10 x)).
Definition size_arg (t : option text) : arg Z :=
  match t with None => Given 1500 | Some t => convert (int10 t) end.
End Cli.
Arguments ct_key {P} c.
Arguments ct_wrap {P} c.
Arguments ct_enc {P} c.
Arguments ct_mode {P} c.
Arguments ct_num {P} c.
Arguments ct_salt {P} c.
Arguments ct_kdf {P} c.
Arguments ct_info {P} c.
Arguments ct_uuid {P} c.
Arguments ct_kdf_salt {P} c.
