(* C78: iteration. *)
From Coq Require Import ZArith List Bool Lia.
From Verif Require Import Py Float Tlv Core TlvProofs CoreProofs Flic FlicProofs PropsFlic Iter.
Import ListNotations.
Open Scope Z_scope.

(* Specification.  The calls made on one object, in order; what a call of next
   answers depends on how many calls of next there were since the last iter. *)
Inductive call := CIter | CNext.
Fixpoint since (calls : list call) : option nat :=   (* latest call first *)
  match calls with
  | [] => None
  | CIter :: _ => Some 0%nat
  | CNext :: cs => option_map S (since cs)
  end.
Definition answer {A} (items : list A) (before : list call) : step A :=
  match since before with
  | None => Fail AttributeError
  | Some k => match nth_error items k with Some a => Item a | None => Stop end
  end.

(* The object after a list of calls (latest first). *)
Fixpoint after {A} (c : cursor A) (calls : list call) : cursor A :=
  match calls with
  | [] => c
  | CIter :: cs => cu_iter (after c cs)
  | CNext :: cs => snd (cu_next (after c cs))
  end.

Lemma py_nth_in {A} (l : list A) k : (k < length l)%nat -> exists a, nth_error l k = Some a /\ py_nth l (Z.of_nat k) = Item a.
Proof.
  intros H. destruct (nth_error l k) as [a|] eqn:E; [|apply nth_error_None in E; lia]. exists a. split; [reflexivity|].
  unfold py_nth. destruct (Z.of_nat k <? 0) eqn:E1; [lia|]. cbv zeta. rewrite E1, Nat2Z.id, E. reflexivity.
Qed.
Lemma cu_next_at {A} (l : list A) k : (k < length l)%nat -> exists a, nth_error l k = Some a /\
  cu_next (mkCursor l (Some (Z.of_nat k))) = (Item a, mkCursor l (Some (Z.of_nat (S k)))).
Proof.
  intros H. destruct (py_nth_in l k H) as (a & N & E). exists a. split; [exact N|]. unfold cu_next. cbn [cu_off cu_items].
  destruct (Z.of_nat k =? zlen l) eqn:Q; [unfold zlen in Q; lia|]. rewrite E. repeat f_equal. lia.
Qed.
Lemma cu_next_end {A} (l : list A) : cu_next (mkCursor l (Some (Z.of_nat (length l)))) = (Stop, mkCursor l (Some (Z.of_nat (length l)))).
Proof. unfold cu_next. cbn [cu_off cu_items]. unfold zlen. rewrite Z.eqb_refl. reflexivity. Qed.

(* * C78 *)
(* For every history of calls of iter and next. *)
Theorem C78_calls : forall A (items : list A) calls,
  fst (cu_next (after (mkCursor items None) calls)) = answer items calls.
Proof.
  intros A items calls.
  assert (I : after (mkCursor items None) calls = mkCursor items (option_map (fun k => Z.of_nat (Nat.min k (length items))) (since calls))).
  { induction calls as [|[] cs IH]; [reflexivity|cbn [after since option_map]; rewrite IH; reflexivity|].
    cbn [after since]. rewrite IH. destruct (since cs) as [k|]; [|reflexivity]. cbn [option_map].
    destruct (Nat.lt_ge_cases k (length items)) as [L|L].
    - rewrite Nat.min_l by lia. destruct (cu_next_at items k L) as (a & _ & ->). cbn [snd]. rewrite Nat.min_l by lia. reflexivity.
    - rewrite Nat.min_r by lia. rewrite cu_next_end. cbn [snd]. rewrite Nat.min_r by lia. reflexivity. }
  rewrite I. unfold answer. destruct (since calls) as [k|]; [|reflexivity]. cbn [option_map].
  destruct (Nat.lt_ge_cases k (length items)) as [L|L].
  - rewrite Nat.min_l by lia. destruct (cu_next_at items k L) as (a & -> & ->). reflexivity.
  - rewrite Nat.min_r by lia. rewrite cu_next_end. rewrite (proj2 (nth_error_None items k)) by lia. reflexivity.
Qed.
Print Assumptions C78_calls.
(* A link, whose position is 0 from the start, answers as if iter had been
   called. *)
Theorem C78_link_calls : forall A (items : list A) calls,
  fst (cu_next (after (mkCursor items (Some 0)) calls)) = answer items (calls ++ [CIter]).
Proof.
  intros A items calls. rewrite <- C78_calls. f_equal. f_equal.
  induction calls as [|[] cs IH]; [reflexivity|cbn [after app]; rewrite IH; reflexivity..].
Qed.
Print Assumptions C78_link_calls.

Lemma skipn_at {A} (l : list A) k a : nth_error l k = Some a -> skipn k l = a :: skipn (S k) l.
Proof. revert l. induction k as [|k IH]; intros [|x l] H; cbn [nth_error] in H; [discriminate|injection H as ->; reflexivity|discriminate|]. cbn [skipn]. rewrite (IH l H). reflexivity. Qed.
Lemma flat_single {A B} (f : A -> B) (l : list A) : flat_map (fun a => [f a]) l = map f l.
Proof. induction l as [|x l IH]; [reflexivity|]. cbn [flat_map app map]. rewrite IH. reflexivity. Qed.
Lemma loop_ext {S A B} fuel (next : S -> step A * S) (b1 b2 : A -> S -> list B * option exn * S) : (forall a s, b1 a s = b2 a s) ->
  forall s, for_loop fuel next b1 s = for_loop fuel next b2 s.
Proof.
  intros E. induction fuel as [|fuel IH]; intros s; [reflexivity|]. cbn [for_loop]. destruct (next s) as [[a| |e] s']; try reflexivity.
  rewrite E. destruct (b2 a s') as [[o [e|]] s2]; [reflexivity|]. rewrite IH. reflexivity.
Qed.
Lemma loop_from {A B} (l : list A) (f : A -> list B) : forall n k fuel, (k + n = length l)%nat -> (n < fuel)%nat ->
  for_loop fuel cu_next (fun a s => (f a, None, s)) (mkCursor l (Some (Z.of_nat k))) =
  (flat_map f (skipn k l), None, mkCursor l (Some (Z.of_nat (length l)))).
Proof.
  induction n as [|n IH]; intros k [|fuel] K F; try lia.
  - replace k with (length l) by lia. cbn [for_loop]. rewrite cu_next_end, skipn_all. reflexivity.
  - cbn [for_loop]. destruct (cu_next_at l k) as (a & N & ->); [lia|]. rewrite (IH (S k) fuel) by lia.
    rewrite (skipn_at l k a N). reflexivity.
Qed.
(* A loop over an object gives all items in order, whatever was done with the
   object before. *)
Theorem C78_loop : forall A (c : cursor A) fuel, (length (cu_items c) < fuel)%nat ->
  exists c', cu_list fuel c = (cu_items c, None, c').
Proof.
  intros A c fuel F. unfold cu_list, cu_iter. change 0 with (Z.of_nat 0). rewrite (loop_from _ (fun a => [a]) (length (cu_items c)) 0 fuel) by lia.
  eexists. rewrite skipn_O, (flat_single (fun a => a)), map_id. reflexivity.
Qed.
Print Assumptions C78_loop.
(* Two loops over the same object disturb each other: of the pairs only those
   with the first item are seen. *)
Theorem C78_pairs_refuted : forall A (c : cursor A) fuel, (length (cu_items c) < fuel)%nat ->
  exists c', cu_pairs fuel c = (match cu_items c with [] => [] | x :: _ => map (pair x) (cu_items c) end, None, c').
Proof.
  intros A c fuel F. unfold cu_pairs. assert (F2 := F). revert F2. generalize fuel at 1 3 as f2. intros f2 F2. revert F.
  destruct (cu_items c) as [|x l] eqn:E; destruct fuel as [|fuel]; cbn [length] in *; intros F; try lia.
  - eexists. cbn [for_loop]. unfold cu_iter. rewrite E. reflexivity.
  - cbn [for_loop]. unfold cu_iter. rewrite E. change 0 with (Z.of_nat 0).
    destruct (cu_next_at (x :: l) 0) as (a & N & ->); [cbn; lia|]. cbn [nth_error] in N. injection N as <-.
    cbn [cu_items].
    rewrite (loop_from (x :: l) (fun b => [(x, b)]) (length (x :: l)) 0 f2) by (cbn [length]; lia).
    destruct fuel as [|fuel]; [lia|]. cbn [for_loop]. rewrite cu_next_end. eexists. rewrite skipn_O, app_nil_r, flat_single. reflexivity.
Qed.
Print Assumptions C78_pairs_refuted.

(* Over a node, each loop has a position of its own. *)
Definition rest (gs : list hgroup) (pi : Z) : list hiv * option exn :=
  match gs with
  | [] => ([], None)
  | g :: gs' =>
    match hg_ptrs g with
    | None => ([], Some TypeError)
    | Some ps => let '(r, e) := group_iter (hg_data g) pi (zskip pi ps) in
      match e with Some _ => (r, e) | None => let '(r', e') := node_iter gs' in (r ++ r', e') end
    end
  end.
Lemma rest_0 gs : rest gs 0 = node_iter gs.
Proof. destruct gs; reflexivity. Qed.
Lemma zskip_cons {A} (l : list A) i : 0 <= i < zlen l -> exists a, py_nth l i = Item a /\ zskip i l = a :: zskip (i + 1) l.
Proof.
  intros H. destruct (py_nth_in l (Z.to_nat i)) as (a & N & P); [unfold zlen in H; lia|]. rewrite Z2Nat.id in P by lia. exists a. split; [exact P|].
  unfold zskip. replace (Z.to_nat (i + 1)) with (S (Z.to_nat i)) by lia. apply skipn_at. exact N.
Qed.
Lemma ni_step gs : forall pre pi, 0 <= pi ->
  match fst (rest gs pi) with
  | [] => exists n', ni_next_from gs (pre ++ gs) (zlen pre) pi = (match snd (rest gs pi) with None => Stop | Some x => Fail x end, n')
  | a :: r => exists pre' gs' pi', pre' ++ gs' = pre ++ gs /\ 0 <= pi' /\
      ni_next_from gs (pre ++ gs) (zlen pre) pi = (Item a, mkNI (pre' ++ gs') (zlen pre') pi') /\ rest gs' pi' = (r, snd (rest gs pi))
  end.
Proof.
  induction gs as [|g gs IH]; intros pre pi P; cbn [rest fst snd ni_next_from]; [eauto|].
  destruct (hg_ptrs g) as [ps|] eqn:Eg; cbn [fst snd]; [|eauto]. destruct (zlen ps <=? pi) eqn:L.
  - assert (zskip pi ps = []) as -> by (unfold zskip; apply skipn_all2; unfold zlen in L; lia). cbn [group_iter].
    specialize (IH (pre ++ [g]) 0 ltac:(lia)). rewrite rest_0 in IH. rewrite <- app_assoc in IH. cbn [app] in IH.
    replace (zlen (pre ++ [g])) with (zlen pre + 1) in IH by (unfold zlen; rewrite app_length; cbn [length]; lia).
    destruct (node_iter gs) as [r' e'] eqn:En. cbn [fst snd app] in *. exact IH.
  - destruct (zskip_cons ps pi) as (p & -> & ->); [lia|]. cbn [group_iter].
    destruct (hg_data g) as [d|] eqn:Ed; cbn [fst snd]; [|eauto]. destruct (gd_nc_id d) as [nc|] eqn:En; cbn [fst snd]; [|eauto].
    destruct (group_iter (Some d) (pi + 1) (zskip (pi + 1) ps)) as [r e] eqn:Er.
    assert (R : rest (g :: gs) (pi + 1) = match e with Some _ => (r, e) | None => let '(r', e') := node_iter gs in (r ++ r', e') end).
    { cbn [rest]. rewrite Eg, Ed, Er. reflexivity. }
    destruct e as [e|]; [|destruct (node_iter gs) as [r' e'] eqn:Ei]; cbn [fst snd app];
      exists pre, (g :: gs), (pi + 1); (split; [reflexivity|]); (split; [lia|]); (split; [reflexivity|exact R]).
Qed.
Lemma skip_pre {A} (pre gs : list A) : zskip (zlen pre) (pre ++ gs) = gs.
Proof. unfold zskip, zlen. rewrite Nat2Z.id, skipn_app, skipn_all, Nat.sub_diag. reflexivity. Qed.
Lemma ni_loop {B} (f : hiv -> list B) : forall fuel gs pre pi, 0 <= pi -> (length (fst (rest gs pi)) < fuel)%nat ->
  exists n', for_loop fuel ni_next (fun a s => (f a, None, s)) (mkNI (pre ++ gs) (zlen pre) pi) =
    (flat_map f (fst (rest gs pi)), snd (rest gs pi), n').
Proof.
  induction fuel as [|fuel IH]; intros gs pre pi P F; [lia|]. cbn [for_loop]. unfold ni_next. cbn [ni_groups ni_group ni_ptr]. rewrite skip_pre.
  assert (S := ni_step gs pre pi P). destruct (fst (rest gs pi)) as [|a r] eqn:E.
  - destruct S as (n' & ->). exists n'. destruct (snd (rest gs pi)); reflexivity.
  - destruct S as (pre' & gs' & pi' & Q & P' & -> & R). cbn [length] in F. destruct (IH gs' pre' pi' P') as (n' & H); [rewrite R; cbn [fst]; lia|].
    fold ni_next. rewrite H, R. cbn [fst snd flat_map]. eauto.
Qed.
Theorem C78_node : forall gs fuel, (length (fst (node_iter gs)) < fuel)%nat ->
  exists n, node_list fuel gs = (fst (node_iter gs), snd (node_iter gs), n).
Proof.
  intros gs fuel F. rewrite <- rest_0 in *. destruct (ni_loop (fun a => [a]) fuel gs [] 0 ltac:(lia) F) as (n & H). exists n.
  unfold node_list, ni_new. cbn [app] in H. change (zlen (@nil hgroup)) with 0 in H. rewrite H, (flat_single (fun a => a)), map_id. reflexivity.
Qed.
Print Assumptions C78_node.
Theorem C78_node_pairs : forall gs l fuel, node_iter gs = (l, None) -> (length l < fuel)%nat ->
  exists n, node_pairs fuel gs = (list_prod l l, None, n).
Proof.
  intros gs l fuel I F. unfold node_pairs.
  assert (J : forall a : hiv, exists n, for_loop fuel ni_next (fun b t => ([(a, b)], None, t)) (ni_new gs) = (map (pair a) l, None, n)).
  { intros a. destruct (ni_loop (fun b => [(a, b)]) fuel gs [] 0) as (n & H); [lia|rewrite rest_0, I; exact F|]. exists n.
    unfold ni_new. cbn [app] in H. change (zlen (@nil hgroup)) with 0 in H. rewrite H, rest_0, I. cbn [fst snd]. rewrite flat_single. reflexivity. }
  destruct (ni_loop (fun a : hiv => map (pair a) l) fuel gs [] 0) as (n & H); [lia|rewrite rest_0, I; exact F|]. exists n.
  unfold ni_new in *. cbn [app] in H. change (zlen (@nil hgroup)) with 0 in H. rewrite rest_0, I in H. cbn [fst snd] in H.
  assert (Q : forall m : list hiv, list_prod m l = flat_map (fun a : hiv => map (pair a) l) m).
  { induction m as [|x m IHm]; [reflexivity|]. cbn [flat_map list_prod]. rewrite IHm. reflexivity. }
  rewrite Q. clear Q.
  rewrite <- H. apply loop_ext. intros a s. destruct (J a) as (n' & ->). reflexivity.
Qed.
Print Assumptions C78_node_pairs.
(* An iterator that has ended does not start again. *)
Theorem C78_node_ended : forall n n' e, ni_next n = (Stop, n') \/ ni_next n = (Fail e, n') -> 0 <= ni_group n -> 0 <= ni_ptr n ->
  fst (ni_next n') = fst (ni_next n).
Proof.
  intros [all gi pi] n' e H G P. cbn [ni_group ni_ptr] in *. unfold ni_next in *. cbn [ni_groups ni_group ni_ptr] in *.
  assert (K : forall gs gi pi, 0 <= gi -> 0 <= pi -> gs = zskip gi all -> forall s n', ni_next_from gs all gi pi = (s, n') -> (forall a, s <> Item a) ->
    ni_next_from (zskip (ni_group n') (ni_groups n')) (ni_groups n') (ni_group n') (ni_ptr n') = (s, n')).
  { clear. induction gs as [|g gs IH]; intros gi pi G P Q s n' H N; pose proof H as H0; cbn [ni_next_from] in H.
    - injection H as <- <-. cbn [ni_groups ni_group ni_ptr]. rewrite <- Q. reflexivity.
    - destruct (hg_ptrs g) as [ps|] eqn:Eg; [|injection H as <- <-; cbn [ni_groups ni_group ni_ptr]; rewrite <- Q; exact H0].
      destruct (zlen ps <=? pi) eqn:L.
      + eapply IH; [| |  |exact H|exact N]; [lia|lia|]. unfold zskip in *. replace (Z.to_nat (gi + 1)) with (S (Z.to_nat gi)) by lia.
        clear -Q. revert Q. generalize (Z.to_nat gi) as k. intros k. revert all. induction k as [|k IH]; intros [|x l] Q; cbn [skipn] in *; try discriminate.
        * injection Q as _ ->. reflexivity.
        * apply IH. exact Q.
      + destruct (zskip_cons ps pi) as (p & Ep & _); [lia|]. rewrite Ep in H. destruct (hg_data g) as [d|] eqn:Ed.
        2:{ injection H as <- <-; cbn [ni_groups ni_group ni_ptr]; rewrite <- Q; exact H0. }
        destruct (gd_nc_id d) as [nc|] eqn:En; [|injection H as <- <-; cbn [ni_groups ni_group ni_ptr]; rewrite <- Q; exact H0].
        injection H as <- <-. exfalso. eapply N. reflexivity. }
  destruct H as [H|H]; rewrite H; erewrite (K _ gi pi G P eq_refl _ n' H); try reflexivity; intros a; discriminate.
Qed.
Print Assumptions C78_node_ended.

(* A reverse iterator gives what the container had when it was made, last
   first, even if the loop appends to the container. *)
Lemma rv_at {A} (l : list A) k : (k < length l)%nat -> exists a, nth_error l k = Some a /\ rv_next l (mkRev (Z.of_nat (S k) - 1)) = (Item a, mkRev (Z.of_nat k - 1)).
Proof.
  intros K. destruct (py_nth_in l k K) as (a & N & P). exists a. split; [exact N|]. unfold rv_next. cbn [rv_off].
  destruct (Z.of_nat (S k) - 1 <? 0) eqn:E; [lia|]. replace (Z.of_nat (S k) - 1) with (Z.of_nat k) by lia. rewrite P. reflexivity.
Qed.
Lemma rev_from {A} (more : A -> list A) : forall k l added fuel, (k <= length l)%nat -> (k < fuel)%nat ->
  for_loop fuel (fun s => let '(x, r) := rv_next (snd s) (fst s) in (x, (r, snd s)))
    (fun a s => ([a], None, (fst s, snd s ++ more a))) (mkRev (Z.of_nat k - 1), l ++ added) =
  (rev (firstn k l), None, (mkRev (-1), l ++ added ++ flat_map more (rev (firstn k l)))).
Proof.
  induction k as [|k IH]; intros l added [|fuel] K F; try lia; cbn [for_loop fst snd].
  - unfold rv_next at 1. cbn [rv_off firstn rev flat_map]. rewrite app_nil_r. reflexivity.
  - destruct (rv_at (l ++ added) k) as (a & N & ->); [rewrite app_length; lia|]. cbv beta iota. cbn [fst snd]. rewrite <- app_assoc.
    rewrite (IH l (added ++ more a) fuel) by lia. rewrite nth_error_app1 in N by lia. apply nth_error_split in N as (l1 & l2 & -> & <-).
    rewrite firstn_app, firstn_all, Nat.sub_diag, firstn_O, app_nil_r. rewrite firstn_app, firstn_all2 by lia. replace (S (length l1) - length l1)%nat with 1%nat by lia.
    cbn [firstn]. rewrite rev_app_distr. cbn [rev app flat_map]. rewrite <- !app_assoc. reflexivity.
Qed.
Theorem C78_reverse : forall A (l : list A) more fuel, (length l < fuel)%nat ->
  exists r, rev_list fuel l more = (rev l, None, (r, l ++ flat_map more (rev l))).
Proof.
  intros A l more fuel F. eexists. unfold rev_list, rv_new, zlen. assert (H := rev_from more (length l) l [] fuel ltac:(lia) F).
  rewrite app_nil_r, firstn_all in H. exact H.
Qed.
Print Assumptions C78_reverse.

Definition ex_gs : list hgroup := [mkHG (Some (mkGD None None None None (Some 1) (Some 7))) (Some [mkHash T_SHA_256 [1]; mkHash T_SHA_256 [2]])].
Example C78_ex :
  cu_pairs 9 (mkCursor [1; 2; 3] (Some 2)) = ([(1, 1); (1, 2); (1, 3)], None, mkCursor [1; 2; 3] (Some 3)) /\
  fst (fst (cu_list 9 (mkCursor [1; 2; 3] (Some 2)))) = [1; 2; 3] /\
  fst (node_pairs 9 ex_gs) = (let a := mkHiv 1 (mkHash T_SHA_256 [1]) (Some 7) in let b := mkHiv 1 (mkHash T_SHA_256 [2]) (Some 8) in [(a, a); (a, b); (b, a); (b, b)], None) /\
  fst (fst (rev_list 9 [1; 2; 3] (fun x => [x + 10]))) = [3; 2; 1] /\
  answer [1; 2; 3] [CNext; CIter; CNext; CNext; CIter] = Item 2.
Proof. repeat split. Qed.
