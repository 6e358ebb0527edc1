(* Iteration: the objects of the package that can be iterated over, call by
   call, and for-loops over them. *)
From Coq Require Import ZArith List Bool.
From Verif Require Import Py Float Tlv Core Flic.
Import ListNotations.
Open Scope Z_scope.

(* What one call of __next__ does: return an item, raise StopIteration, or
   raise something else. *)
Inductive step (A : Type) := Item (a : A) | Stop | Fail (e : exn).
Arguments Item {A} a.
Arguments Stop {A}.
Arguments Fail {A} e.

(* l[i] for a list or array: negative indices count from the end, others raise
   IndexError (Python) *)
Definition py_nth {A} (l : list A) (i : Z) : step A :=
  let j := if i <? 0 then zlen l + i else i in
  if j <? 0 then Fail IndexError
  else match nth_error l (Z.to_nat j) with Some a => Item a | None => Fail IndexError end.

(* An object with one position of its own: core/Tlv.py:84-94,
   core/HashValue.py:56-66, core/Timestamp.py:51-61, core/Link.py:80-90 (items:
   the bytes of the wire format), flic/tlvs/Pointers.py:62-72 (items: the hash
   values).  There is no attribute _offset before the first __iter__, except
   for Link (core/Link.py:55-69 sets it to 0). *)
Record cursor (A : Type) := mkCursor { cu_items : list A; cu_off : option Z }.
Arguments mkCursor {A}.
Arguments cu_items {A}.
Arguments cu_off {A}.
(* __iter__: the object itself is the iterator *)
Definition cu_iter {A} (c : cursor A) : cursor A := mkCursor (cu_items c) (Some 0).
(* __next__ *)
Definition cu_next {A} (c : cursor A) : step A * cursor A :=
  match cu_off c with
  | None => (Fail AttributeError, c)
  | Some o =>
    if o =? zlen (cu_items c) then (Stop, c)
    else match py_nth (cu_items c) o with
         | Item a => (Item a, mkCursor (cu_items c) (Some (o + 1)))
         | s => (s, c)
         end
  end.

(* flic/tlvs/Node.py:45-49, 124-125: __iter__ makes a new NodeIterator *)
Record nodeit := mkNI { ni_groups : list hgroup; ni_group : Z; ni_ptr : Z }.
Definition ni_new (gs : list hgroup) : nodeit := mkNI gs 0 0.
(* flic/tlvs/Node.py:51-67.  The call of itself for the next group is the
   recursion, on the groups not yet done; Python's recursion limit is not
   modelled. *)
Fixpoint ni_next_from (gs : list hgroup) (all : list hgroup) (gi pi : Z) : step hiv * nodeit :=
  match gs with
  | [] => (Stop, mkNI all gi pi)
  | g :: gs' =>
    match hg_ptrs g with
    | None => (Fail TypeError, mkNI all gi pi)
    | Some ps =>
      if zlen ps <=? pi then ni_next_from gs' all (gi + 1) 0
      else match py_nth ps pi with
           | Item p =>
             match hg_data g with
             | None => (Fail ValueError, mkNI all gi pi)
             | Some d =>
               match gd_nc_id d with
               | None => (Fail ValueError, mkNI all gi pi)
               | Some nc => (Item (mkHiv nc p (segment_id d pi)), mkNI all gi (pi + 1))
               end
             end
           | Stop => (Stop, mkNI all gi pi)
           | Fail e => (Fail e, mkNI all gi pi)
           end
    end
  end.
Definition ni_next (n : nodeit) : step hiv * nodeit :=
  ni_next_from (zskip (ni_group n) (ni_groups n)) (ni_groups n) (ni_group n) (ni_ptr n).

(* flic/tree/FileChunks.py:46-60, flic/name_constructor/FileMetadata.py:71-82:
   the iterator has a reference to the container, given to each call *)
Record revit := mkRev { rv_off : Z }.
Definition rv_new {A} (l : list A) : revit := mkRev (zlen l - 1).
Definition rv_next {A} (l : list A) (r : revit) : step A * revit :=
  if rv_off r <? 0 then (Stop, r)
  else match py_nth l (rv_off r) with
       | Item a => (Item a, mkRev (rv_off r - 1))
       | s => (s, r)
       end.

(* for x in it: body.  The state s is everything the program can change: the
   iterator and what the body works on; out is what the body gives out.  The
   result is that output and how the loop ended. *)
Fixpoint for_loop {S A B} (fuel : nat) (next : S -> step A * S) (body : A -> S -> list B * option exn * S) (s : S) : list B * option exn * S :=
  match fuel with
  | O => ([], Some OutOfFuel, s)
  | Datatypes.S f =>
    match next s with
    | (Stop, s') => ([], None, s')
    | (Fail e, s') => ([], Some e, s')
    | (Item a, s') =>
      match body a s' with
      | (o, Some e, s2) => (o, Some e, s2)
      | (o, None, s2) => let '(o', e, s3) := for_loop f next body s2 in (o ++ o', e, s3)
      end
    end
  end.

(* [x for x in p] and [(x, y) for x in p for y in p] over one object with a
   position of its own *)
Definition cu_list {A} (fuel : nat) (c : cursor A) : list A * option exn * cursor A :=
  for_loop fuel cu_next (fun a s => ([a], None, s)) (cu_iter c).
Definition cu_pairs {A} (fuel : nat) (c : cursor A) : list (A * A) * option exn * cursor A :=
  for_loop fuel cu_next (fun a s => for_loop fuel cu_next (fun b s => ([(a, b)], None, s)) (cu_iter s)) (cu_iter c).
(* the same over a node: each loop has its own iterator *)
Definition node_list (fuel : nat) (gs : list hgroup) : list hiv * option exn * nodeit :=
  for_loop fuel ni_next (fun a s => ([a], None, s)) (ni_new gs).
Definition node_pairs (fuel : nat) (gs : list hgroup) : list (hiv * hiv) * option exn * nodeit :=
  for_loop fuel ni_next
    (fun a s => let '(o, e, _) := for_loop fuel ni_next (fun b t => ([(a, b)], None, t)) (ni_new gs) in (o, e, s)) (ni_new gs).
(* for x in chunks, the body appending the items that more gives
   (flic/tree/FileChunks.py:37-41 append) *)
Definition rev_list {A} (fuel : nat) (l : list A) (more : A -> list A) : list A * option exn * (revit * list A) :=
  for_loop fuel (fun s => let '(x, r) := rv_next (snd s) (fst s) in (x, (r, snd s)))
    (fun a s => ([a], None, (fst s, snd s ++ more a))) (rv_new l, l).
