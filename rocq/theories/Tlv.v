(* Model of /repo/ccnpy/core/Tlv.py and /repo/ccnpy/core/TlvType.py. *)
From Coq Require Import ZArith List Bool.
From Verif Require Import Py.
Import ListNotations.
Open Scope Z_scope.

(* core/Tlv.py:65-69.  A Tlv object holds its type, its flattened value and
   the wire format computed in the constructor.  Simplified: the wire format is
   recomputed by [tlv_wire] instead of stored; it is a function of the other
   two fields (core/Tlv.py:141-147). *)
Record tlv := mkTlv { t_type : Z; t_val : bytes }.

(* core/Tlv.py:178-179 *)
Definition tlv_length (t : tlv) : Z := zlen (t_val t).
(* core/Tlv.py:77-82 *)
Definition tlv_len (t : tlv) : Z := 4 + tlv_length t.

(* core/Tlv.py:181-183 *)
Definition tlv_encode16 (n : Z) : bytes := [Z.shiftr n 8; Z.land n 255].

(* core/Tlv.py:138-147 *)
Definition tlv_wire (t : tlv) : bytes :=
  tlv_encode16 (t_type t) ++ tlv_encode16 (tlv_length t) ++ t_val t.

(* core/Tlv.py:65-69 with 141-147: the constructor; array("B", ...) raises
   OverflowError if a header byte or value byte is out of range. *)
Definition tlv_make (ty : Z) (v : bytes) : res tlv :=
  let t := mkTlv ty v in
  _ <- array_B (tlv_wire t) ;; Ok t.

(* core/Tlv.py:121-136: flatten a list of serialized items, skipping None. *)
Fixpoint flatten (l : list (option bytes)) : bytes :=
  match l with
  | [] => []
  | None :: l' => flatten l'
  | Some b :: l' => b ++ flatten l'
  end.

(* core/Tlv.py:263-268 *)
Definition array_to_number (a : bytes) : Z :=
  fold_left (fun n b => Z.lor (Z.shiftl n 8) b) a 0.

(* core/Tlv.py:107-119 *)
Definition tlv_deserialize (buffer : bytes) : res tlv :=
  if zlen buffer <? 4 then Err ParseError else
  let ty := array_to_number (firstn 2 buffer) in
  let len := array_to_number (firstn 2 (skipn 2 buffer)) in
  let value := ztake len (skipn 4 buffer) in
  if len =? zlen value then tlv_make ty value else Err ParseError.

(* core/Tlv.py:191-215 *)
Definition number_to_array (n : Z) : res bytes :=
  array_B
    (if n <? 0x100 then [n]
     else if n <? 0x10000 then [Z.shiftr n 8; Z.land n 0xFF]
     else if n <? 0x1000000 then
       [Z.shiftr n 16; Z.land (Z.shiftr n 8) 0xFF; Z.land n 0xFF]
     else if n <? 0x100000000 then
       [Z.shiftr n 24; Z.land (Z.shiftr n 16) 0xFF;
        Z.land (Z.shiftr n 8) 0xFF; Z.land n 0xFF]
     else
       [Z.land (Z.shiftr n 56) 0xFF; Z.land (Z.shiftr n 48) 0xFF;
        Z.land (Z.shiftr n 40) 0xFF; Z.land (Z.shiftr n 32) 0xFF;
        Z.land (Z.shiftr n 24) 0xFF; Z.land (Z.shiftr n 16) 0xFF;
        Z.land (Z.shiftr n 8) 0xFF; Z.land n 0xFF]).

(* core/Tlv.py:217-227 *)
Definition uint64_to_array (n : Z) : res bytes :=
  array_B
    [Z.land (Z.shiftr n 56) 0xFF; Z.land (Z.shiftr n 48) 0xFF;
     Z.land (Z.shiftr n 40) 0xFF; Z.land (Z.shiftr n 32) 0xFF;
     Z.land (Z.shiftr n 24) 0xFF; Z.land (Z.shiftr n 16) 0xFF;
     Z.land (Z.shiftr n 8) 0xFF; Z.land n 0xFF].

(* core/Tlv.py:229-238 *)
Definition uint32_to_array (n : Z) : res bytes :=
  array_B [Z.shiftr n 24; Z.land (Z.shiftr n 16) 0xFF;
           Z.land (Z.shiftr n 8) 0xFF; Z.land n 0xFF].

(* core/Tlv.py:240-249 *)
Definition uint24_to_array (n : Z) : res bytes :=
  array_B [Z.shiftr n 16; Z.land (Z.shiftr n 8) 0xFF; Z.land n 0xFF].

(* core/Tlv.py:251-261 *)
Definition uint16_to_array (n : Z) : res bytes :=
  _ <- guard ((0 <=? n) && (n <=? 0xFFFF)) AssertionError ;;
  array_B [Z.shiftr n 8; Z.land n 0xFF].

(* core/Tlv.py:22-30 *)
Definition create_uint64 (ty n : Z) : res tlv :=
  a <- uint64_to_array n ;; tlv_make ty a.
(* core/Tlv.py:32-41 *)
Definition create_uint8 (ty n : Z) : res tlv :=
  _ <- guard ((0 <=? n) && (n <=? 255)) AssertionError ;;
  a <- number_to_array n ;; tlv_make ty a.
(* core/Tlv.py:43-52 *)
Definition create_uint16 (ty n : Z) : res tlv :=
  _ <- guard ((0 <=? n) && (n <=? 0xFFFF)) AssertionError ;;
  a <- uint16_to_array n ;; tlv_make ty a.
(* core/Tlv.py:54-63 *)
Definition create_varint (ty n : Z) : res tlv :=
  a <- number_to_array n ;; tlv_make ty a.

(* core/Tlv.py:175-176 *)
Definition value_as_number (t : tlv) : Z := array_to_number (t_val t).

(* core/Tlv.py:96-102: compares length and value, not type. *)
Definition tlv_eq (a b : tlv) : bool :=
  (tlv_len a =? tlv_len b) && beqb (t_val a) (t_val b).

(* core/Tlv.py:149-167 *)
Definition tlv_extend (t other : tlv) : res tlv :=
  tlv_make (t_type t) (t_val t ++ tlv_wire other).

(* The common shape of the parse loops
     offset = 0
     while offset < len(value):
         inner = Tlv.deserialize(value[offset:]); offset += len(inner)
         <step>
   e.g. core/TlvType.py:91-112, core/Name.py:170-186,
   core/ContentObject.py, core/Packet.py, flic/tlvs/*.py.
   Simplified: instead of an offset the remaining buffer is passed on.
   [fuel] bounds the number of iterations. *)
Fixpoint tlv_loop {S} (fuel : nat) (step : S -> tlv -> res S) (s : S)
    (buf : bytes) : res S :=
  match buf with
  | [] => Ok s
  | _ :: _ =>
    match fuel with
    | O => Err OutOfFuel
    | Datatypes.S f =>
      t <- tlv_deserialize buf ;;
      s' <- step s t ;;
      tlv_loop f step s' (zskip (tlv_len t) buf)
    end
  end.

Definition tlv_foreach {S} (step : S -> tlv -> res S) (s : S) (buf : bytes)
  : res S := tlv_loop (length buf) step s buf.

(* core/TlvType.py:82-114.  The field table maps a type number to a parser;
   parsed fields are kept under their type number (in the code: under the
   argument name, which is in bijection with the type in every caller). *)
Fixpoint lookup {V} (ty : Z) (vs : list (Z * V)) : option V :=
  match vs with
  | [] => None
  | (k, v) :: vs' => if k =? ty then Some v else lookup ty vs'
  end.

(* core/TlvType.py:102-112: the body of the loop.  The try block also
   swallows a KeyError raised by the field parser. *)
Definition auto_step {V} (table : Z -> option (tlv -> res V))
    (skip_unknown : bool) (vs : list (Z * V)) (t : tlv)
  : res (list (Z * V)) :=
  match table (t_type t) with
  | None => if skip_unknown then Ok vs else Err ParseError
  | Some parse =>
    match lookup (t_type t) vs with
    | Some _ => Err ParseError
    | None =>
      match parse t with
      | Ok v => Ok ((t_type t, v) :: vs)
      | Err KeyError => if skip_unknown then Ok vs else Err ParseError
      | Err e => Err e
      end
    end
  end.

Definition auto_value_parse {V} (table : Z -> option (tlv -> res V))
    (skip_unknown : bool) (value : bytes) : res (list (Z * V)) :=
  tlv_foreach (auto_step table skip_unknown) [] value.

(* core/TlvType.py:57-80 *)
Definition auto_parse {V} (class_type : Z) (table : Z -> option (tlv -> res V))
    (t : tlv) : res (list (Z * V)) :=
  _ <- guard (t_type t =? class_type) CannotParseError ;;
  auto_value_parse table true (t_val t).

(* core/TlvType.py:117-151: IntegerTlvType.  An object is represented by its
   integer; [int_tlv] is the Tlv built by its constructor. *)
Definition int_tlv (class_type : Z) (n : Z) : res tlv :=
  create_varint class_type n.
Definition int_parse (class_type : Z) (t : tlv) : res Z :=
  _ <- guard (t_type t =? class_type) CannotParseError ;;
  let n := value_as_number t in
  _ <- int_tlv class_type n ;;     (* cls(...) builds the Tlv again *)
  Ok n.

(* core/TlvType.py:154-207: OctetTlvType, represented by its bytes. *)
Definition octet_tlv (class_type : Z) (v : bytes) : res tlv :=
  tlv_make class_type v.
Definition octet_parse (class_type : Z) (t : tlv) : res bytes :=
  _ <- guard (t_type t =? class_type) CannotParseError ;;
  _ <- octet_tlv class_type (t_val t) ;;
  Ok (t_val t).

(* serialize() of an optional sub-object, as used in Tlv(type, [a, None, b]) *)
Definition wire_opt {A} (enc : A -> res tlv) (o : option A)
  : res (option bytes) :=
  match o with
  | None => Ok None
  | Some a => t <- enc a ;; Ok (Some (tlv_wire t))
  end.
