(* Python values and exceptions used by the model. *)
From Coq Require Import ZArith List Bool.
Import ListNotations.
Open Scope Z_scope.

(* The exception classes that the modelled code raises or lets through.
   /repo/ccnpy/exceptions/ParseError.py, CannotParseError.py,
   /repo/ccnpy/crypto/DecryptionError.py,
   /repo/ccnpy/crypto/InsecureKeystore.py:23-30 (KeyIdNotFoundError,
   KeyNumberNotFoundError); the rest are Python builtins.
   OutOfFuel is not a Python exception: it marks a model loop that ran out of
   its iteration bound; theorem C10 shows that it never happens. *)
Inductive exn :=
| ParseError | CannotParseError | ValueError | TypeError | AssertionError
| OverflowError | KeyError | IndexError | RuntimeError | AttributeError
| NameError | ZeroDivisionError | NotImplementedError | FileNotFoundError
| DecryptionError | KeyIdNotFoundError | KeyNumberNotFoundError
| StructError | OSError | OutOfFuel.

(* A Python call either returns a value or raises. *)
Inductive res (A : Type) :=
| Ok (a : A)
| Err (e : exn).
Arguments Ok {A} a.
Arguments Err {A} e.

(* Sequencing: an exception ends the computation. *)
Definition bind {A B} (m : res A) (f : A -> res B) : res B :=
  match m with Ok a => f a | Err e => Err e end.
Notation "x <- m ;; k" := (bind m (fun x => k))
  (at level 61, m at next level, right associativity).
Notation "' p <- m ;; k" := (bind m (fun p => k))
  (at level 61, p pattern, m at next level, right associativity).

(* "assert c" / "if not c: raise e". *)
Definition guard (c : bool) (e : exn) : res unit :=
  if c then Ok tt else Err e.

(* Did the call return? *)
Definition is_ok {A} (m : res A) : bool :=
  match m with Ok _ => true | Err _ => false end.

Definition exn_eqb (a b : exn) : bool :=
  match a, b with
  | ParseError, ParseError | CannotParseError, CannotParseError
  | ValueError, ValueError | TypeError, TypeError
  | AssertionError, AssertionError | OverflowError, OverflowError
  | KeyError, KeyError | IndexError, IndexError | RuntimeError, RuntimeError
  | AttributeError, AttributeError | NameError, NameError
  | ZeroDivisionError, ZeroDivisionError
  | NotImplementedError, NotImplementedError
  | FileNotFoundError, FileNotFoundError | DecryptionError, DecryptionError
  | KeyIdNotFoundError, KeyIdNotFoundError
  | KeyNumberNotFoundError, KeyNumberNotFoundError
  | StructError, StructError | OSError, OSError
  | OutOfFuel, OutOfFuel => true
  | _, _ => false
  end.

(* A byte string.  Python uses array("B"), bytes and lists of ints; the model
   uses one list type.  Where the Python type matters for an observable
   result (name equality, see Core.v) the model carries a tag. *)
Definition bytes := list Z.

Definition is_byte (b : Z) : bool := (0 <=? b) && (b <? 256).
Definition bytes_okb (l : bytes) : bool := forallb is_byte l.
Definition bytes_ok (l : bytes) : Prop := Forall (fun b => 0 <= b < 256) l.

(* array.array("B", l): OverflowError if an item is not an unsigned byte. *)
Definition array_B (l : bytes) : res bytes :=
  if bytes_okb l then Ok l else Err OverflowError.

(* len() of a sequence. *)
Definition zlen {A} (l : list A) : Z := Z.of_nat (length l).

(* Python slices l[a:], l[:b] for non-negative bounds. *)
Definition zskip {A} (n : Z) (l : list A) : list A := skipn (Z.to_nat n) l.
Definition ztake {A} (n : Z) (l : list A) : list A := firstn (Z.to_nat n) l.

Fixpoint beqb (a b : bytes) : bool :=
  match a, b with
  | [], [] => true
  | x :: a', y :: b' => (x =? y) && beqb a' b'
  | _, _ => false
  end.

(* "for x in l: s = f(s, x)" where f may raise. *)
Fixpoint foldM {A S} (f : S -> A -> res S) (s : S) (l : list A) : res S :=
  match l with
  | [] => Ok s
  | x :: l' => s' <- f s x ;; foldM f s' l'
  end.

(* [f(x) for x in l] where f may raise. *)
Fixpoint mapM {A B} (f : A -> res B) (l : list A) : res (list B) :=
  match l with
  | [] => Ok []
  | x :: l' => y <- f x ;; ys <- mapM f l' ;; Ok (y :: ys)
  end.

(* f(x) if x is not None else None *)
Definition optM {A B} (f : A -> res B) (o : option A) : res (option B) :=
  match o with
  | None => Ok None
  | Some a => b <- f a ;; Ok (Some b)
  end.

(* The limit of sys.set_int_max_str_digits (default): int() refuses decimal
   texts with more digits, and the decimal text of an int with more digits
   raises ValueError.  Small numbers are decided without the power. *)
Definition MAX_DIGITS : Z := 4300.
Definition has_text (n : Z) : bool :=
  if Z.abs n <? 2 ^ 64 then true else Z.abs n <? 10 ^ MAX_DIGITS.
Definition int_text (n : Z) : res unit := guard (has_text n) ValueError.
