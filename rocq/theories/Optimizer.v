(* The shape of the manifest tree: TreeOptimizer, OptimizerResult and the
   manifest id generator. *)
From Coq Require Import ZArith List Bool.
From Verif Require Import Py Float.
Import ListNotations.
Open Scope Z_scope.

(* range(a, a + n) *)
Fixpoint zseq (a : Z) (n : nat) : list Z :=
  match n with O => [] | S n' => a :: zseq (a + 1) n' end.
(* range(a, b) *)
Definition zrange (a b : Z) : list Z := zseq a (Z.to_nat (b - a)).

(* math.ceil of a non-negative float *)
Definition fl_ceil (f : fl) : Z := - ((- fl_num f) / fl_den f).

(* math.ceil(a / b) for integers and b > 0; the division is the correctly
   rounded float quotient, negative numerators by symmetry.  A quotient beyond
   the float range raises OverflowError. *)
Definition ceil_div (a b : Z) : res Z :=
  if b =? 0 then Err ZeroDivisionError else
  let f := int_truediv (Z.abs a) b in
  if fl_finite f then Ok (if a <? 0 then - fl_trunc f else fl_ceil f)
  else Err OverflowError.

(* /repo/ccnpy/flic/tree/TreeOptimizer.py:75-90 calculate_k; None is math.inf.
   Used with m = 0 or 1 <= m < d + m, so the divisor is positive. *)
Definition calc_k (n d m : Z) : res (option Z) :=
  if m =? 0 then Ok (if d <? n then None else Some 1)
  else k <- ceil_div (n - d - m) (m * (d + m - 1)) ;; Ok (Some k).

(* TreeOptimizer.py:92-103 calculate_n *)
Definition calc_n (k d m : Z) : Z := k * (d * m + m * m - m) + d + m.

(* TreeOptimizer.py:188-191 calculate_waste *)
Definition calc_waste (n k d m : Z) : Z := calc_n k d m - n.

(* /repo/ccnpy/flic/tree/OptimizerResult.py:27-45, the instance fields *)
Record optres := mkOR
  { or_n : Z; or_p : Z; or_d : Z; or_m : Z; or_k : Z; or_w : Z;
    or_leaf : Z; or_height : Z }.

(* OptimizerResult.py:81-89 _calculate_num_leaf_nodes *)
Definition num_leaf (n p d k : Z) : res Z :=
  let remaining := n - k * d in
  if remaining <=? 0 then Ok 0 else ceil_div remaining p.

Section Log.
(* int(math.ceil(math.log(x, b) - s)) for s = 0 or 1, x >= 1 and b >= 2:
   math.log is the C library's; its accuracy enters theorems as a hypothesis. *)
Variable clog : Z -> Z -> Z -> Z.

(* The same with the exceptions of math.log: the argument is converted first
   (ValueError if not positive), then the base, then log(x)/log(base). *)
Definition ceil_log (x b s : Z) : res Z :=
  if (x <=? 0) || (b <=? 0) then Err ValueError
  else if b =? 1 then Err ZeroDivisionError
  else Ok (clog x b s).

(* OptimizerResult.py:59-79 _calculate_tree_height *)
Definition tree_height (n d m total : Z) : res Z :=
  if m =? 1 then Ok total
  else if m =? 0 then ceil_log n d 0
  else ceil_log ((m - 1) * total + 1) m 1.

(* OptimizerResult.py:27-45 __init__ with 91-97 _sanity_check *)
Definition opt_result (n p d m k w : Z) : res optres :=
  leaf <- num_leaf n p d k ;;
  h <- tree_height n d m (k + leaf) ;;
  _ <- guard (d + m =? p) ValueError ;;
  _ <- guard (n <=? leaf * p + k * d) ValueError ;;
  Ok (mkOR n p d m k w leaf h).

(* TreeOptimizer.py:114-126, one turn of the loop of minimize_k; the state is
   best_k (None is math.inf) and best_solutions *)
Definition min_k_step (n p : Z) (s : option Z * list optres) (m : Z)
  : res (option Z * list optres) :=
  let d := p - m in
  k <- calc_k n d m ;;
  match k with
  | None => Ok s
  | Some k =>
      r <- opt_result n p d m k (calc_waste n k d m) ;;
      match fst s with
      | None => Ok (Some k, [r])
      | Some best =>
          if k <? best then Ok (Some k, [r])
          else if k =? best then Ok (Some best, snd s ++ [r])
          else Ok s
      end
  end.

(* TreeOptimizer.py:105-129 minimize_k *)
Definition minimize_k (n p : Z) : res (list optres) :=
  s <- foldM (min_k_step n p) (None, []) (zrange 0 p) ;; Ok (snd s).

(* TreeOptimizer.py:135-138: the first of the solutions with the least waste *)
Definition least_waste (best : option optres) (r : optres) : option optres :=
  match best with
  | None => Some r
  | Some b => if or_w r <? or_w b then Some r else Some b
  end.

(* TreeOptimizer.py:131-140 minimize_k_min_waste *)
Definition minimize_k_min_waste (n p : Z) : res optres :=
  l <- minimize_k n p ;;
  match fold_left least_waste l None with
  | None => Err AssertionError
  | Some r => Ok r
  end.

(* TreeOptimizer.py:168-181, one turn of the loop of minimize_waste.  With
   k = math.inf (only for m = 0) the waste is inf * 0 + ... = nan, and both
   comparisons with nan are false. *)
Definition min_w_step (n p : Z) (s : option Z * list optres) (m : Z)
  : res (option Z * list optres) :=
  let d := p - m in
  k <- calc_k n d m ;;
  match k with
  | None => Ok s
  | Some k =>
      let w := calc_waste n k d m in
      let better := match fst s with None => true | Some b => w <? b end in
      let equal := match fst s with None => false | Some b => w =? b end in
      if better then r <- opt_result n p d m k w ;; Ok (Some w, [r])
      else if equal then r <- opt_result n p d m k w ;; Ok (fst s, snd s ++ [r])
      else Ok s
  end.

(* TreeOptimizer.py:158-186 minimize_waste *)
Definition minimize_waste (n p : Z) : res (list optres) :=
  s <- foldM (min_w_step n p) (None, []) (zrange 0 p) ;; Ok (snd s).

(* TreeOptimizer.py:149-154: the first solution below the least height so far,
   which starts at 0xFFFFFFFF *)
Definition least_height (best : option optres) (r : optres) : option optres :=
  let b := match best with None => 0xFFFFFFFF | Some b => or_height b end in
  if or_height r <? b then Some r else best.

(* TreeOptimizer.py:142-156 minimize_waste_min_height *)
Definition minimize_waste_min_height (n p : Z) : res optres :=
  l <- minimize_waste n p ;;
  match fold_left least_height l None with
  | None => Err AssertionError
  | Some r => Ok r
  end.
End Log.

(* int(x / y - 1) for positive x and y: float quotient, then a float
   subtraction.  Both results are below 2^1024 or the division overflows. *)
Definition quot_minus_1 (x y : Z) : res Z :=
  let q := int_truediv x y in
  if fl_finite q then
    Ok (fl_trunc (fl_round (fl_num q - fl_den q) (fl_den q)))
  else Err OverflowError.

(* /repo/ccnpy/flic/tree/ManifestIdFactory.py:29-39 _last_id_for_height *)
Definition last_id (degree h : Z) : res Z :=
  if degree =? 1 then Ok h
  else _ <- guard (1 <? degree) AssertionError ;;
       quot_minus_1 (degree ^ (h + 1) - 1) (degree - 1).

(* ManifestIdFactory.py:23-27 __init__: the list _next_ids *)
Definition id_factory (degree max_height : Z) : res (list Z) :=
  mapM (last_id degree) (zrange 0 (max_height + 1)).

(* l[i] = v for 0 <= i < len(l) *)
Fixpoint set_nth (i : nat) (v : Z) (l : list Z) : list Z :=
  match l, i with
  | [], _ => []
  | _ :: l', O => v :: l'
  | x :: l', S i' => x :: set_nth i' v l'
  end.

(* ManifestIdFactory.py:41-47 get_next_id, height >= 0 (the caller asserts it):
   the id and the new _next_ids *)
Definition next_id (ids : list Z) (height : Z) : res (Z * list Z) :=
  match nth_error ids (Z.to_nat height) with
  | None => Err IndexError
  | Some v =>
      _ <- guard (0 <=? v) OverflowError ;;
      Ok (v, set_nth (Z.to_nat height) (v - 1) ids)
  end.
