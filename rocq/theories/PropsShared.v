(* C81: histories of calls on hash group builders and names; objects that share
   a list; accessors. *)
From Coq Require Import ZArith List Bool Lia ZifyBool.
From Verif Require Import Py Float Tlv Core TlvProofs CoreProofs Flic FlicProofs Spec PropsCore Tree Uri PropsUri Shared.
Import ListNotations.
Open Scope Z_scope.
Opaque tlv_make tlv_wire tlv_deserialize.

(* ---------------- specification: which calls of a builder count ---------------- *)

Definition direct (c : call) : bool := match c with Append d _ _ | Prepend d _ _ => d end.
Definition hash_of (c : call) : hashv := match c with Append _ h _ | Prepend _ h _ => h end.
Definition size_of (c : call) : Z := match c with Append _ _ s | Prepend _ _ s => match s with Some s => s | None => 0 end end.
Definition at_end (c : call) : bool := match c with Append _ _ _ => true | Prepend _ _ _ => false end.
(* the first d calls for direct pointers and the first i for indirect ones *)
Fixpoint counted (d i : Z) (cs : list call) : list call :=
  match cs with
  | [] => []
  | c :: cs =>
    if direct c then (if 0 <? d then c :: counted (d - 1) i cs else counted d i cs)
    else (if 0 <? i then c :: counted d (i - 1) cs else counted d i cs)
  end.
(* what was put in front, last call first, then what was put behind *)
Definition in_order (cs : list call) : list hashv :=
  rev (map hash_of (filter (fun c => negb (at_end c)) cs)) ++ map hash_of (filter at_end cs).
Definition total (cs : list call) : Z := fold_right Z.add 0 (map size_of cs).

(* ---------------- the builder ---------------- *)

(* the pointer calls of a history *)
Fixpoint calls (ops : list bop) : list call :=
  match ops with [] => [] | BCall c :: ops => c :: calls ops | BGroup _ _ _ _ :: ops => calls ops end.

Definition extends (b b' : hgb) (cs : list call) : Prop :=
  hb_ptrs b' = rev (map hash_of (filter (fun c => negb (at_end c)) cs)) ++ hb_ptrs b ++ map hash_of (filter at_end cs) /\
  hb_dsize b' = hb_dsize b + total (filter direct cs) /\ hb_isize b' = hb_isize b + total (filter (fun c => negb (direct c)) cs) /\
  hb_dcount b' = hb_dcount b + zlen (filter direct cs) /\ hb_icount b' = hb_icount b + zlen (filter (fun c => negb (direct c)) cs) /\
  hb_maxd b' = hb_maxd b /\ hb_maxi b' = hb_maxi b.
Lemma total_cons c cs : total (c :: cs) = size_of c + total cs.
Proof. reflexivity. Qed.
Lemma extends_nil b : extends b b [].
Proof. unfold extends, total. cbn [filter map rev app fold_right]. repeat split; try (symmetry; apply app_nil_r); unfold zlen; cbn [length]; lia. Qed.
Lemma do_call_cases c b :
  match do_call c b with
  | Ok b' => extends b b' [c] /\ 0 < (if direct c then hb_maxd b - hb_dcount b else hb_maxi b - hb_icount b)
  | Err e => e = AssertionError /\ (if direct c then hb_maxd b - hb_dcount b else hb_maxi b - hb_icount b) <= 0
  end.
Proof.
  assert (A : forall z s, add_opt z s = z + match s with Some s => s | None => 0 end) by (intros z [s|]; unfold add_opt; lia).
  destruct c as [[|] h s|[|] h s]; cbn [do_call direct]; unfold hb_append_direct, hb_append_indirect, hb_prepend_direct, hb_prepend_indirect, guard;
    match goal with |- context [if ?c then Ok tt else _] => destruct c eqn:E end; cbn [bind]; try (split; [reflexivity|lia]);
    (split; [|lia]); unfold extends; cbn [filter direct at_end negb map rev app hash_of hb_ptrs hb_dsize hb_isize hb_dcount hb_icount hb_maxd hb_maxi];
    rewrite ?A, ?zlen_cons, ?zlen_nil, ?total_cons, ?app_nil_r; unfold total; cbn [map fold_right size_of]; repeat split; try reflexivity; cbn; try lia.
Qed.
Lemma extends_cons b b1 b2 c cs : extends b b1 [c] -> extends b1 b2 cs -> extends b b2 (c :: cs).
Proof.
  intros (A1 & A2 & A3 & A4 & A5 & A6 & A7) (B1 & B2 & B3 & B4 & B5 & B6 & B7). unfold extends. cbn [filter] in *.
  rewrite B1, B2, B3, B4, B5, B6, B7, A1, A2, A3, A4, A5, A6, A7.
  unfold total, zlen. destruct (direct c), (at_end c); cbn [negb map rev app filter fold_right length];
    rewrite ?app_nil_r, <- ?app_assoc; cbn [app]; repeat split; try reflexivity; lia.
Qed.
Lemma builder_run ops : forall s, 
  extends (bs_hb s) (bs_hb (brun s ops)) (counted (hb_maxd (bs_hb s) - hb_dcount (bs_hb s)) (hb_maxi (bs_hb s) - hb_icount (bs_hb s)) (calls ops)).
Proof.
  induction ops as [|op ops IH]; intros s; [apply extends_nil|]. cbn [brun fold_left]. fold (brun (bstep s op) ops).
  specialize (IH (bstep s op)). destruct op as [c|nc start leaf sub]; cbn [bstep calls counted] in *.
  - pose proof (do_call_cases c (bs_hb s)) as D. destruct (do_call c (bs_hb s)) as [b'|e]; cbn [bs_hb] in *.
    + destruct D as (X & P). pose proof X as (_ & _ & _ & A4 & A5 & A6 & A7). rewrite A4, A5, A6, A7 in IH. cbn [filter] in IH.
      destruct (direct c); cbn [negb] in IH; rewrite ?zlen_cons, ?zlen_nil in IH; cbn [filter] in IH.
      * destruct (0 <? hb_maxd (bs_hb s) - hb_dcount (bs_hb s)) eqn:E; [|lia]. eapply extends_cons; [exact X|].
        replace (hb_maxd (bs_hb s) - hb_dcount (bs_hb s) - 1) with (hb_maxd (bs_hb s) - (hb_dcount (bs_hb s) + (1 + 0))) by lia.
        replace (hb_maxi (bs_hb s) - hb_icount (bs_hb s)) with (hb_maxi (bs_hb s) - (hb_icount (bs_hb s) + 0)) by lia. exact IH.
      * destruct (0 <? hb_maxi (bs_hb s) - hb_icount (bs_hb s)) eqn:E; [|lia]. eapply extends_cons; [exact X|].
        replace (hb_maxi (bs_hb s) - hb_icount (bs_hb s) - 1) with (hb_maxi (bs_hb s) - (hb_icount (bs_hb s) + (1 + 0))) by lia.
        replace (hb_maxd (bs_hb s) - hb_dcount (bs_hb s)) with (hb_maxd (bs_hb s) - (hb_dcount (bs_hb s) + 0)) by lia. exact IH.
    + destruct D as (_ & P). destruct (direct c).
      * destruct (0 <? hb_maxd (bs_hb s) - hb_dcount (bs_hb s)) eqn:E; [lia|exact IH].
      * destruct (0 <? hb_maxi (bs_hb s) - hb_icount (bs_hb s)) eqn:E; [lia|exact IH].
  - destruct (bind _ _); exact IH.
Qed.
(* After any calls: of those for direct pointers the first max_direct count, of
   those for indirect ones the first max_indirect; order, counts and sizes are
   those of the calls that count.  The next call raises AssertionError, and
   changes nothing, exactly when the builder says it is full. *)
Theorem C81_builder : forall maxd maxi ops, let b := bs_hb (brun (mkBst (hb_new maxd maxi) []) ops) in
  let cs := counted maxd maxi (calls ops) in
  hb_ptrs b = in_order cs /\
  hb_dcount b = zlen (filter direct cs) /\ hb_icount b = zlen (filter (fun c => negb (direct c)) cs) /\
  hb_dsize b = total (filter direct cs) /\ hb_isize b = total (filter (fun c => negb (direct c)) cs) /\
  (hb_direct_full b = true <-> maxd <= zlen (filter direct (calls ops))) /\
  (hb_indirect_full b = true <-> maxi <= zlen (filter (fun c => negb (direct c)) (calls ops))) /\
  forall c, match do_call c b with
            | Ok _ => (if direct c then hb_direct_full b else hb_indirect_full b) = false
            | Err e => e = AssertionError /\ (if direct c then hb_direct_full b else hb_indirect_full b) = true
            end.
Proof.
  intros maxd maxi ops b cs. pose proof (builder_run ops (mkBst (hb_new maxd maxi) [])) as R. fold b in R. cbn [bs_hb hb_new hb_maxd hb_maxi hb_dcount hb_icount] in R.
  rewrite !Z.sub_0_r in R. fold cs in R. destruct R as (A1 & A2 & A3 & A4 & A5 & A6 & A7).
  cbn [hb_new hb_ptrs hb_dsize hb_isize hb_dcount hb_icount hb_maxd hb_maxi app] in *. rewrite Z.add_0_l in *.
  assert (CD : zlen (filter direct cs) = Z.max 0 (Z.min maxd (zlen (filter direct (calls ops)))) /\
    zlen (filter (fun c => negb (direct c)) cs) = Z.max 0 (Z.min maxi (zlen (filter (fun c => negb (direct c)) (calls ops))))).
  { unfold cs. clear. generalize (calls ops) as l. intros l. revert maxd maxi. induction l as [|c l IH]; intros d i; cbn [counted filter].
    - rewrite !zlen_nil. lia.
    - destruct (direct c) eqn:Ec; cbn [negb].
      + destruct (0 <? d) eqn:E; [cbn [filter]; rewrite Ec; cbn [negb]; rewrite !zlen_cons|rewrite !zlen_cons];
          [destruct (IH (d - 1) i) as (I1 & I2)|destruct (IH d i) as (I1 & I2)]; rewrite I1, I2;
          pose proof (zlen_nonneg (filter direct l)); split; lia.
      + destruct (0 <? i) eqn:E; [cbn [filter]; rewrite Ec; cbn [negb]; rewrite !zlen_cons|rewrite !zlen_cons];
          [destruct (IH d (i - 1)) as (I1 & I2)|destruct (IH d i) as (I1 & I2)]; rewrite I1, I2;
          pose proof (zlen_nonneg (filter (fun c => negb (direct c)) l)); split; lia. }
  destruct CD as (C1 & C2). pose proof (zlen_nonneg (filter direct (calls ops))). pose proof (zlen_nonneg (filter (fun c => negb (direct c)) (calls ops))).
  split; [exact A1|]. do 4 (split; [assumption|]). unfold hb_direct_full, hb_indirect_full. rewrite A4, A5, A6, A7, C1, C2.
  split; [lia|]. split; [lia|]. intros c. pose proof (do_call_cases c b) as D. rewrite A4, A5, A6, A7, C1, C2 in D.
  destruct (do_call c b); [destruct (direct c); lia|]. destruct D as (-> & D). split; [reflexivity|]. destruct (direct c); lia.
Qed.

(* ---------------- a group shares the list of its builder ---------------- *)

Lemma bstep_groups s op : exists more, bs_groups (bstep s op) = bs_groups s ++ more.
Proof.
  destruct op as [c|nc start leaf sub]; cbn [bstep].
  - destruct (do_call c (bs_hb s)); exists []; rewrite app_nil_r; reflexivity.
  - destruct (bind _ _); [eexists; reflexivity|exists []; now rewrite app_nil_r].
Qed.
Lemma brun_groups ops : forall s, exists more, bs_groups (brun s ops) = bs_groups s ++ more.
Proof.
  induction ops as [|op ops IH]; intros s; [exists []; cbn; now rewrite app_nil_r|]. cbn [brun fold_left]. fold (brun (bstep s op) ops).
  destruct (bstep_groups s op) as (m1 & E1). destruct (IH (bstep s op)) as (m2 & ->). rewrite E1, <- app_assoc. eauto.
Qed.
(* However a builder is used before and after: the wire format of a group it has
   made holds the pointers it had then, while the group itself has those the
   builder has now. *)
Theorem C81_group : forall s nc start leaf sub g ops,
  bs_groups (bstep s (BGroup nc start leaf sub)) = bs_groups s ++ [g] ->
  let s' := brun (bstep s (BGroup nc start leaf sub)) ops in
  nth_error (bs_groups s') (length (bs_groups s)) = Some g /\
  hg_tlv (mkHG (go_data g) (Some (hb_ptrs (bs_hb s)))) = Ok (go_wire g) /\
  (forall d, go_data g = Some d -> gd_subtree_size d = (if sub then Some (hb_isize (bs_hb s) + hb_dsize (bs_hb s)) else None) /\
     gd_leaf_size d = (if leaf then Some (hb_dsize (bs_hb s)) else None) /\ gd_nc_id d = nc /\ gd_start d = start) /\
  go_ptrs s' g = rev (map hash_of (filter (fun c => negb (at_end c)) (counted (hb_maxd (bs_hb s) - hb_dcount (bs_hb s)) (hb_maxi (bs_hb s) - hb_icount (bs_hb s)) (calls ops))))
    ++ hb_ptrs (bs_hb s) ++
    map hash_of (filter at_end (counted (hb_maxd (bs_hb s) - hb_dcount (bs_hb s)) (hb_maxi (bs_hb s) - hb_icount (bs_hb s)) (calls ops))).
Proof.
  intros s nc start leaf sub g ops E s'. destruct (brun_groups ops (bstep s (BGroup nc start leaf sub))) as (more & Em). fold s' in Em.
  assert (Es : bs_hb (bstep s (BGroup nc start leaf sub)) = bs_hb s) by (cbn [bstep]; destruct (bind _ _); reflexivity).
  split; [|split; [|split]].
  - rewrite Em, E, <- app_assoc. rewrite nth_error_app2, Nat.sub_diag by lia. reflexivity.
  - cbn [bstep] in E. destruct (bind _ _) as [g0|e] eqn:Eb.
    + cbn [bs_groups] in E. apply app_inv_head in E. injection E as ->. apply bind_ok in Eb as (h & Eh & Et). apply bind_ok in Et as (t & Et & Eg).
      apply Ok_inj in Eg. subst g. cbn [go_data go_wire]. unfold hb_group in Eh. apply bind_ok in Eh as (? & _ & Eh). apply Ok_inj in Eh. subst h. exact Et.
    + apply (f_equal (@length _)) in E. rewrite app_length in E. cbn in E. lia.
  - intros d Ed. cbn [bstep] in E. destruct (bind _ _) as [g0|e] eqn:Eb.
    + cbn [bs_groups] in E. apply app_inv_head in E. injection E as ->. apply bind_ok in Eb as (h & Eh & Et). apply bind_ok in Et as (t & Et & Eg).
      apply Ok_inj in Eg. subst g. cbn [go_data] in Ed. unfold hb_group in Eh. apply bind_ok in Eh as (? & _ & Eh). apply Ok_inj in Eh. subst h.
      cbn [hg_data] in Ed. destruct (_ || _ || _ || _); [|discriminate]. injection Ed as <-. auto.
    + apply (f_equal (@length _)) in E. rewrite app_length in E. cbn in E. lia.
  - pose proof (builder_run ops (bstep s (BGroup nc start leaf sub))) as (A & _). rewrite Es in A. exact A.
Qed.
Lemma hg_ptrs_inj d l l' t : hg_tlv (mkHG d (Some l)) = Ok t -> hg_tlv (mkHG d (Some l')) = Ok t -> l = l'.
Proof.
  intros H H'. apply hg_tlv_ok in H as (_ & _ & l1 & l2 & O1 & O2 & F & V). apply hg_tlv_ok in H' as (_ & _ & k1 & k2 & Q1 & Q2 & F' & V').
  cbn [hg_data hg_ptrs] in *. assert (l1 = k1) as <-.
  { destruct d as [d|]; cbn [opt_tlvs] in *; [destruct O1 as (t1 & T1 & ->), Q1 as (t2 & T2 & ->)|subst; reflexivity]. congruence. }
  rewrite V in V'. apply wires_inj in V'; [|assumption|assumption]. apply app_inv_head in V'. subst k2.
  cbn [opt_tlvs] in *. destruct O2 as (t1 & T1 & ->), Q2 as (t2 & T2 & E). injection E as <-.
  apply ptrs_roundtrip in T1, T2. congruence.
Qed.
(* So the pointers of a group are those of its wire format only as long as no
   further call to the builder succeeds. *)
Theorem C81_group_shared : forall s nc start leaf sub g ops,
  bs_groups (bstep s (BGroup nc start leaf sub)) = bs_groups s ++ [g] ->
  let s' := brun (bstep s (BGroup nc start leaf sub)) ops in
  (hg_tlv (mkHG (go_data g) (Some (go_ptrs s' g))) = Ok (go_wire g) <->
   counted (hb_maxd (bs_hb s) - hb_dcount (bs_hb s)) (hb_maxi (bs_hb s) - hb_icount (bs_hb s)) (calls ops) = []).
Proof.
  intros s nc start leaf sub g ops E s'. destruct (C81_group s nc start leaf sub g ops E) as (_ & W & _ & P). fold s' in P. rewrite P.
  set (cs := counted _ _ _). split.
  - intros W'. pose proof (hg_ptrs_inj _ _ _ _ W W') as E'. apply (f_equal (@length _)) in E'. rewrite !app_length, rev_length, !map_length in E'.
    destruct cs as [|c cs]; [reflexivity|exfalso]. cbn [filter] in E'. destruct (at_end c); cbn [negb length] in E'; lia.
  - intros ->. cbn [filter map rev app]. rewrite app_nil_r. exact W.
Qed.

(* ---------------- names ---------------- *)

Lemma set_nth_length {A} (l : list A) : forall k a, length (set_nth l k a) = length l.
Proof. induction l as [|x l IH]; intros [|k] a; cbn [set_nth length]; auto. Qed.
Lemma set_nth_other {A} (l : list A) : forall k a j d, j <> k -> nth j (set_nth l k a) d = nth j l d.
Proof. induction l as [|x l IH]; intros [|k] a [|j] d H; cbn [set_nth nth]; auto; try congruence. Qed.
Lemma set_nth_same {A} (l : list A) : forall k a d, (k < length l)%nat -> nth k (set_nth l k a) d = a.
Proof. induction l as [|x l IH]; intros [|k] a d H; cbn [set_nth nth length] in *; auto; try lia. apply IH. lia. Qed.

(* states that calls lead to *)
Definition reached (s : nst) : Prop := exists ops, s = nrun nst0 ops.
Definition sound (s : nst) : Prop :=
  Forall (fun r => (r < length (ns_heap s))%nat) (ns_own s) /\
  Forall (fun n => match no_list n with
                   | None => name_tlv [] = Ok (no_wire n)
                   | Some r => (r < length (ns_heap s))%nat /\ (In r (ns_own s) \/ name_tlv (nth r (ns_heap s) []) = Ok (no_wire n))
                   end) (ns_names s).
Lemma sound_step s op : sound s -> sound (nstep s op).
Proof.
  intros S0. pose proof S0 as (O & N).
  assert (HE : forall l, Forall (fun n => match no_list n with
                   | None => name_tlv [] = Ok (no_wire n)
                   | Some r => (r < length (ns_heap s ++ [l]))%nat /\ (In r (ns_own s) \/ name_tlv (nth r (ns_heap s ++ [l]) []) = Ok (no_wire n))
                   end) (ns_names s)).
  { intros l. eapply Forall_impl; [|exact N]. cbn. intros n Hn. destruct (no_list n) as [r|]; [|exact Hn]. destruct Hn as (L & H).
    rewrite app_length. split; [lia|]. now rewrite app_nth1. }
  destruct op as [l|[k|]|k c|k c]; cbn [nstep].
  - split; cbn [ns_heap ns_own ns_names].
    + apply Forall_app. rewrite app_length. cbn [length]. split; [eapply Forall_impl; [|exact O]; cbv beta; intros; lia|constructor; [lia|constructor]].
    + eapply Forall_impl; [|exact (HE l)]. cbn. intros n Hn. destruct (no_list n) as [r|]; [|exact Hn]. destruct Hn as (L & [H|H]); split; auto.
      left. apply in_app_iff. now left.
  - destruct (nth_error (ns_own s) k) as [r|] eqn:Er; [|exact S0]. destruct (name_tlv (nth r (ns_heap s) [])) as [t|e]; [|exact S0].
    split; cbn [ns_heap ns_own ns_names]; [exact O|]. apply Forall_app. split; [exact N|]. constructor; [|constructor]. cbn [no_list no_wire].
    apply nth_error_In in Er. rewrite Forall_forall in O. split; [now apply O|now left].
  - clear O N HE. destruct (name_tlv []) as [t|e] eqn:E; [|exact S0]. pose proof S0 as (O & N). split; cbn [ns_heap ns_own ns_names]; [exact O|]. apply Forall_app. split; [exact N|].
    constructor; [|constructor]. cbn [no_list no_wire]. exact E.
  - destruct (nth_error (ns_own s) k) as [r|] eqn:Er; [|exact S0]. split; cbn [ns_heap ns_own ns_names].
    + eapply Forall_impl; [|exact O]. cbn. intros j Hj. rewrite set_nth_length. exact Hj.
    + eapply Forall_impl; [|exact N]. cbn. intros n Hn. destruct (no_list n) as [j|]; [|exact Hn]. destruct Hn as (L & H). rewrite set_nth_length. split; [exact L|].
      destruct (Nat.eq_dec j r) as [->|Hj]; [left; eapply nth_error_In; exact Er|]. rewrite set_nth_other by exact Hj. exact H.
  - destruct (nth_error (ns_names s) k) as [n|] eqn:En; [|exact S0]. destruct (name_tlv (comps_of s n ++ [c])) as [t|e] eqn:Et; [|exact S0].
    split; cbn [ns_heap ns_own ns_names].
    + rewrite app_length. eapply Forall_impl; [|exact O]. cbv beta. intros. lia.
    + apply Forall_app. split; [apply HE|]. constructor; [|constructor]. cbn [no_list no_wire]. rewrite app_length. cbn [length]. split; [lia|].
      right. rewrite app_nth2, Nat.sub_diag by lia. exact Et.
Qed.
Lemma sound_run ops : forall s, sound s -> sound (nrun s ops).
Proof. induction ops as [|op ops IH]; intros s H; [exact H|]. cbn [nrun fold_left]. apply IH, sound_step, H. Qed.
Lemma reached_sound s : reached s -> sound s.
Proof. intros (ops & ->). apply sound_run. split; constructor. Qed.

(* the caller holds the list of the name *)
Definition lent (s : nst) (n : nobj) : Prop := exists r, no_list n = Some r /\ In r (ns_own s).

Lemma step_names s op : exists more, ns_names (nstep s op) = ns_names s ++ more.
Proof.
  assert (E0 : exists more, ns_names s = ns_names s ++ more) by (exists []; now rewrite app_nil_r).
  destruct op as [l|[k|]|k c|k c]; cbn [nstep]; [exact E0|destruct (nth_error _ _); [|exact E0]; destruct (name_tlv _)|destruct (name_tlv _)|
    destruct (nth_error _ _)|destruct (nth_error _ _); [|exact E0]; destruct (name_tlv _)]; try exact E0; eexists; reflexivity.
Qed.
Lemma step_kept s op n : sound s -> In n (ns_names s) -> ~ lent s n -> ~ lent (nstep s op) n /\ comps_of (nstep s op) n = comps_of s n.
Proof.
  intros (O & N) Hn L. rewrite Forall_forall in N. specialize (N n Hn). unfold lent, comps_of in *. destruct (no_list n) as [r|] eqn:Er.
  2:{ split; [intros (r & H & _); discriminate|reflexivity]. }
  destruct N as (Hr & _). assert (~ In r (ns_own s)) as NI by (intros H; apply L; eauto).
  assert (K : forall h own, (forall j, In j own -> In j (ns_own s) \/ j = length (ns_heap s)) -> nth r h [] = nth r (ns_heap s) [] ->
    ~ (exists r0, Some r = Some r0 /\ In r0 own) /\ nth r h [] = nth r (ns_heap s) []).
  { intros h own Hown Hh. split; [|exact Hh]. intros (r0 & E & I). injection E as <-. destruct (Hown r I) as [I'| ->]; [auto|lia]. }
  destruct op as [l|[k|]|k c|k c]; cbn [nstep].
  - cbn [ns_heap ns_own]. apply K; [|now rewrite app_nth1]. intros j Hj. apply in_app_iff in Hj as [Hj|[<-|[]]]; auto.
  - destruct (nth_error (ns_own s) k); [|auto]. destruct (name_tlv _); auto.
  - destruct (name_tlv _); auto.
  - destruct (nth_error (ns_own s) k) as [j|] eqn:Ej; [|auto]. cbn [ns_heap ns_own]. apply K; [auto|]. apply set_nth_other. intros ->.
    apply NI. eapply nth_error_In. exact Ej.
  - destruct (nth_error (ns_names s) k) as [m|]; [|auto]. destruct (name_tlv _); [|auto]. cbn [ns_heap ns_own]. apply K; [auto|]. now rewrite app_nth1.
Qed.
(* A name never changes what it is on the wire; a name whose list the caller does
   not hold never changes its components either, and its wire format is theirs. *)
Theorem C81_names_keep : forall s k n ops, reached s -> nth_error (ns_names s) k = Some n ->
  nth_error (ns_names (nrun s ops)) k = Some n /\
  (~ lent s n -> comps_of (nrun s ops) n = comps_of s n /\ name_tlv (comps_of s n) = Ok (no_wire n)).
Proof.
  intros s k n ops R Hn. apply reached_sound in R.
  assert (W : ~ lent s n -> name_tlv (comps_of s n) = Ok (no_wire n)).
  { intros L. destruct R as (_ & N). apply nth_error_In in Hn. rewrite Forall_forall in N. specialize (N n Hn). unfold lent, comps_of in *.
    destruct (no_list n) as [r|]; [|exact N]. destruct N as (_ & [I|E]); [|exact E]. exfalso. apply L. eauto. }
  assert (G : nth_error (ns_names (nrun s ops)) k = Some n /\ (~ lent s n -> comps_of (nrun s ops) n = comps_of s n)).
  { clear W. revert s R Hn. induction ops as [|op ops IH]; intros s R Hn; [auto|]. cbn [nrun fold_left]. fold (nrun (nstep s op) ops).
    destruct (step_names s op) as (more & Em).
    assert (nth_error (ns_names (nstep s op)) k = Some n) as Hn' by (rewrite Em, nth_error_app1; [exact Hn|]; apply nth_error_Some; congruence).
    destruct (IH (nstep s op) (sound_step s op R) Hn') as (A & B). split; [exact A|]. intros L.
    destruct (step_kept s op n R (nth_error_In _ _ Hn) L) as (L' & E). rewrite (B L'). exact E. }
  destruct G as (A & B). split; [exact A|]. auto.
Qed.
(* Making a name: of a list its components and wire format are those of the list
   now; Name() has the empty wire format and no components, but count, name[i]
   and component raise TypeError. *)
Theorem C81_make : forall s,
  (forall j r, reached s -> nth_error (ns_own s) j = Some r ->
    let s' := nstep s (Make (Some j)) in
    match name_tlv (nth r (ns_heap s) []) with
    | Err _ => s' = s
    | Ok t => exists n, ns_names s' = ns_names s ++ [n] /\ comps_of s' n = nth r (ns_heap s) [] /\ no_wire n = t /\ lent s' n /\
        no_count s' n = Ok (zlen (nth r (ns_heap s) [])) /\ forall m, comps_of s' m = comps_of s m
    end) /\
  (exists n, ns_names (nstep s (Make None)) = ns_names s ++ [n] /\ name_tlv [] = Ok (no_wire n) /\
     forall s', comps_of s' n = [] /\ ~ lent s' n /\ no_count s' n = Err TypeError /\
       forall i, no_item s' n i = Err TypeError /\ (0 <= i -> no_component s' n i = Err TypeError)).
Proof.
  intros s. split.
  - intros j r R Hj s'. unfold s'. cbn [nstep]. rewrite Hj. destruct (name_tlv (nth r (ns_heap s) [])) as [t|e]; [|reflexivity].
    exists (mkNobj (Some r) t). split; [reflexivity|]. split; [reflexivity|]. split; [reflexivity|]. split; [|split; [reflexivity|reflexivity]].
    exists r. split; [reflexivity|]. eapply nth_error_In. exact Hj.
  - assert (E : exists t, name_tlv [] = Ok t) by (eexists; vm_compute; reflexivity). destruct E as (t & E). cbn [nstep]. rewrite E.
    exists (mkNobj None t). split; [reflexivity|]. split; [reflexivity|]. intros s'. split; [reflexivity|].
    split; [intros (r & H & _); discriminate H|]. split; [reflexivity|]. intros i. split; [reflexivity|]. intros Hi.
    unfold no_component, guard. destruct (0 <=? i) eqn:Ei; [reflexivity|lia].
Qed.
(* Name.append makes a name of its own: the components of the old one now and
   the new component; the list of the new name is not held by the caller. *)
Theorem C81_append : forall s k n c, reached s -> nth_error (ns_names s) k = Some n ->
  let s' := nstep s (Extend k c) in
  match name_tlv (comps_of s n ++ [c]) with
  | Err _ => s' = s
  | Ok t => exists n', ns_names s' = ns_names s ++ [n'] /\ comps_of s' n' = comps_of s n ++ [c] /\ no_wire n' = t /\ ~ lent s' n' /\
      forall m, In m (ns_names s) -> comps_of s' m = comps_of s m
  end.
Proof.
  intros s k n c R Hn s'. unfold s'. cbn [nstep]. rewrite Hn. destruct (name_tlv (comps_of s n ++ [c])) as [t|e]; [|reflexivity].
  apply reached_sound in R as (O & N). eexists. cbn [ns_names]. split; [reflexivity|]. unfold comps_of at 1. cbn [no_list ns_heap no_wire].
  rewrite app_nth2, Nat.sub_diag by lia. split; [reflexivity|]. split; [reflexivity|]. split.
  - intros (r & E & I). cbn [no_list ns_own] in *. injection E as <-. rewrite Forall_forall in O. specialize (O _ I). lia.
  - intros m Hm. rewrite Forall_forall in N. specialize (N m Hm). unfold comps_of. cbn [ns_heap]. destruct (no_list m) as [r|]; [|reflexivity].
    destruct N as (L & _). now rewrite app_nth1.
Qed.
(* A name made of a list the caller holds follows that list, its wire format
   does not: after one more component they never agree again, and what is
   appended to the name has the extra component, too. *)
Theorem C81_names_lent : forall s k j n r c, reached s -> nth_error (ns_names s) k = Some n ->
  no_list n = Some r -> nth_error (ns_own s) j = Some r ->
  let s' := nstep s (Push j c) in
  nth_error (ns_names s') k = Some n /\ comps_of s' n = comps_of s n ++ [c] /\
  no_count s' n = Ok (zlen (comps_of s n) + 1) /\
  (name_tlv (comps_of s n) = Ok (no_wire n) -> name_tlv (comps_of s' n) <> Ok (no_wire n)) /\
  (forall d t, name_tlv (comps_of s n ++ [c; d]) = Ok t ->
     exists n', ns_names (nstep s' (Extend k d)) = ns_names s' ++ [n'] /\ no_wire n' = t).
Proof.
  intros s k j n r c R Hn Hr Hj s'. apply reached_sound in R as (O & N).
  assert (Hlt : (r < length (ns_heap s))%nat) by (rewrite Forall_forall in O; apply O; eapply nth_error_In; exact Hj).
  unfold s'. cbn [nstep]. rewrite Hj. cbn [ns_names]. split; [exact Hn|].
  assert (E : comps_of (mkNst (set_nth (ns_heap s) r (nth r (ns_heap s) [] ++ [c])) (ns_own s) (ns_names s)) n = comps_of s n ++ [c]).
  { unfold comps_of. rewrite Hr. cbn [ns_heap]. now apply set_nth_same. }
  split; [exact E|]. split; [|split].
  - unfold no_count. rewrite Hr, E, zlen_app. reflexivity.
  - rewrite E. intros W W'. apply C06_name_roundtrip in W as (n1 & P1 & V1 & _). apply C06_name_roundtrip in W' as (n2 & P2 & V2 & _).
    rewrite P1 in P2. apply Ok_inj in P2. subst n2. rewrite V1 in V2. unfold name_content in V2. apply (f_equal (@length _)) in V2.
    rewrite !map_length, app_length in V2. cbn [length] in V2. lia.
  - intros d t Ht. rewrite Hn, E, <- app_assoc. cbn [app]. rewrite Ht. eexists. split; [reflexivity|reflexivity].
Qed.

(* ---------------- items ---------------- *)

(* name[i] and name.component(i): counting from the front, name[-i] from the
   back; anything else raises *)
Theorem C81_items : forall s n r, no_list n = Some r ->
  (forall k c, nth_error (comps_of s n) k = Some c ->
     no_component s n (Z.of_nat k) = Ok c /\ no_item s n (Z.of_nat k) = comp_item c /\
     no_item s n (Z.of_nat k - zlen (comps_of s n)) = comp_item c) /\
  (forall i, i < 0 -> no_component s n i = Err AssertionError) /\
  (forall i, zlen (comps_of s n) <= i -> no_component s n i = Err IndexError) /\
  (forall i, i < - zlen (comps_of s n) \/ zlen (comps_of s n) <= i -> no_item s n i = Err IndexError).
Proof.
  intros s n r Hr. set (l := comps_of s n).
  assert (IN : forall k c, nth_error l k = Some c -> list_item l (Z.of_nat k) = Ok c /\ list_item l (Z.of_nat k - zlen l) = Ok c).
  { intros k c H. assert (k < length l)%nat as Hk by (apply nth_error_Some; congruence). unfold list_item, zlen.
    split; cbv zeta.
    - destruct (Z.of_nat k <? 0) eqn:E; [lia|]. rewrite E, Nat2Z.id, H. reflexivity.
    - destruct (Z.of_nat k - Z.of_nat (length l) <? 0) eqn:E; [|lia].
      replace (Z.of_nat (length l) + (Z.of_nat k - Z.of_nat (length l))) with (Z.of_nat k) by lia.
      destruct (Z.of_nat k <? 0) eqn:E2; [lia|]. rewrite Nat2Z.id, H. reflexivity. }
  assert (OUT : forall i, i < - zlen l \/ zlen l <= i -> list_item l i = Err IndexError).
  { intros i Hi. unfold list_item, zlen in *. cbv zeta. destruct (i <? 0) eqn:E.
    - destruct (Z.of_nat (length l) + i <? 0) eqn:E2; [reflexivity|lia].
    - rewrite E. rewrite (proj2 (nth_error_None l (Z.to_nat i))) by lia. reflexivity. }
  split; [|split; [|split]].
  - intros k c H. destruct (IN k c H) as (A & B). unfold no_component, no_item. rewrite Hr. fold l. rewrite A, B.
    unfold guard. destruct (0 <=? Z.of_nat k) eqn:E; [|lia]. cbn [bind]. auto.
  - intros i Hi. unfold no_component, guard. destruct (0 <=? i) eqn:E; [lia|reflexivity].
  - intros i Hi. unfold no_component, guard. destruct (0 <=? i) eqn:E; [|unfold zlen in Hi; lia]. cbn [bind]. rewrite Hr. fold l. apply OUT. auto.
  - intros i Hi. unfold no_item. rewrite Hr. fold l. rewrite OUT by exact Hi. reflexivity.
Qed.
(* name[i] before and after the wire: bytes are decoded either way; an array
   becomes text, or the item cannot be had any more when it is no UTF-8. *)
Theorem C81_items_wire : forall n t n', name_tlv n = Ok t -> name_parse t = Ok n' ->
  forall k c, nth_error n k = Some c -> exists c', nth_error n' k = Some c' /\ c_type c' = c_type c /\
    comp_item c' = (x <- utf8_decode (c_val c) ;; Ok (IText x)) /\ (comp_item c' = comp_item c <-> c_kind c = KBytes).
Proof.
  intros n t n' H H' k c Hc. rewrite (name_roundtrip _ _ H) in H'. apply Ok_inj in H'. subst n'. unfold name_norm.
  exists (mkComp (c_type c) KBytes (c_val c)). split; [rewrite nth_error_map, Hc; reflexivity|]. split; [reflexivity|].
  unfold comp_item. cbn [c_kind c_val]. split; [reflexivity|]. destruct (c_kind c); [|split; reflexivity].
  split; [|discriminate]. destruct (utf8_decode (c_val c)); discriminate.
Qed.
(* The number of a chunk or manifest made by the package: name[-1] is an array;
   after the wire it is a text below 128, and from 128 to 255 it raises
   UnicodeDecodeError (a ValueError). *)
Theorem C81_chunk_item : forall n i n1 t n2, (append_chunk_id n i = Ok n1 \/ append_manifest_id n i = Ok n1) ->
  name_tlv n1 = Ok t -> name_parse t = Ok n2 ->
  exists c c', n1 = n ++ [c] /\ nth_error n2 (length n) = Some c' /\ comp_item c = Ok (IArray (c_val c)) /\
    (0 <= i < 128 -> comp_item c' = Ok (IText [i])) /\ (128 <= i < 256 -> comp_item c' = Err ValueError) /\
    is_name_segment c' = false /\ (is_chunk_id_segment c' = negb (is_manifest_id_segment c')).
Proof.
  intros n i n1 t n2 H Ht Hp.
  assert (exists c, n1 = n ++ [c] /\ c_kind c = KArray /\ number_to_array i = Ok (c_val c) /\ (c_type c = T_CHUNKID \/ c_type c = T_MANIFESTID)) as (c & -> & Hk & Hv & Hty).
  { destruct H as [H|H]; unfold append_chunk_id, append_manifest_id in H; apply bind_ok in H as (a & Ha & H); cbv zeta in H;
      apply bind_ok in H as (? & _ & H); apply bind_ok in H as (? & _ & H); apply Ok_inj in H; subst n1; eexists; (split; [reflexivity|]); cbn; auto. }
  destruct (C81_items_wire _ _ _ Ht Hp (length n) c) as (c' & Hc' & Ty & It & _); [rewrite nth_error_app2, Nat.sub_diag by lia; reflexivity|].
  exists c, c'. split; [reflexivity|]. split; [exact Hc'|]. split; [unfold comp_item; rewrite Hk; reflexivity|]. rewrite It.
  assert (0 <= i < 256 -> c_val c = [i]) as V.
  { intros Hi. unfold number_to_array, array_B in Hv. change 0x100 with 256 in Hv. destruct (i <? 256) eqn:E; [|lia].
    destruct (bytes_okb [i]); [|discriminate]. apply Ok_inj in Hv. congruence. }
  split; [|split; [|split]].
  - intros Hi. rewrite V by lia. cbn [utf8_decode]. destruct ((0 <=? i) && (i <? 128)) eqn:E; [reflexivity|lia].
  - intros Hi. rewrite V by lia. cbn [utf8_decode]. destruct ((0 <=? i) && (i <? 128)) eqn:E; [lia|reflexivity].
  - unfold is_name_segment. rewrite Ty. destruct Hty as [-> | ->]; reflexivity.
  - unfold is_chunk_id_segment, is_manifest_id_segment. rewrite Ty. destruct Hty as [-> | ->]; reflexivity.
Qed.

(* ---------------- methods that cannot work ---------------- *)

(* node_locator answers only for nodes without locators, and interest_list for
   no manifest. *)
Theorem C81_node_locator : forall n, (exists r, node_locator n = Ok r) <-> (forall d, n_data n = Some d -> nd_locators d = None).
Proof.
  intros n. unfold node_locator. destruct (n_data n) as [d|].
  - destruct (nd_locators d) as [ls|] eqn:E; split.
    + intros (r & H). discriminate.
    + intros H. specialize (H d eq_refl). congruence.
    + intros _ d' H. injection H as <-. exact E.
    + eauto.
  - split; [intros _ d H; discriminate|eauto].
Qed.
Theorem C81_interest_list : forall m final, exists e, interest_list m final = Err e /\
  e = (if final then match m_node m with MNode _ => RuntimeError | MEnc _ => TypeError end else AttributeError).
Proof. intros m [|]; unfold interest_list; cbn [bind]; [destruct (m_node m)|]; cbn [bind]; eauto. Qed.

(* ---------------- examples ---------------- *)

Definition ex_h (x : Z) : hashv := mkHash 1 (repeat x 32).
Definition ex_calls : list bop :=
  [BCall (Append true (ex_h 1) (Some 10)); BCall (Prepend false (ex_h 2) (Some 7)); BCall (Append true (ex_h 3) None);
   BCall (Prepend true (ex_h 4) (Some 5)); BCall (Prepend false (ex_h 5) (Some 1)); BCall (Append true (ex_h 6) None)].
(* room for three direct pointers and two indirect ones: the last call raises *)
Example C81_builder_ex : let b := bs_hb (brun (mkBst (hb_new 3 2) []) ex_calls) in
  hb_ptrs b = [ex_h 5; ex_h 4; ex_h 2; ex_h 1; ex_h 3] /\ hb_direct_full b = true /\ hb_indirect_full b = true /\
  hb_dsize b = 15 /\ hb_isize b = 8 /\ do_call (Append false (ex_h 7) None) b = Err AssertionError.
Proof. vm_compute. repeat split. Qed.
Definition ex_s : bst := brun (mkBst (hb_new 3 2) []) (firstn 2 ex_calls).
Example C81_group_ex : exists g, bs_groups (bstep ex_s (BGroup (Some 1) None true true)) = bs_groups ex_s ++ [g] /\
  let s' := brun (bstep ex_s (BGroup (Some 1) None true true)) (skipn 2 ex_calls) in
  go_ptrs s' g = [ex_h 5; ex_h 4; ex_h 2; ex_h 1; ex_h 3] /\
  hg_tlv (mkHG (go_data g) (Some [ex_h 2; ex_h 1])) = Ok (go_wire g) /\ hg_tlv (mkHG (go_data g) (Some (go_ptrs s' g))) <> Ok (go_wire g).
Proof. eexists. split; [vm_compute; reflexivity|]. vm_compute. repeat split. discriminate. Qed.

Definition seg (b : bytes) : comp := mkComp T_NAMESEGMENT KBytes b.
Definition ex_ops : list nop := [NewList [seg [97]]; Make (Some 0%nat); Make None; Extend 0 (seg [98]); Push 0 (seg [99]); Extend 0 (seg [100])].
(* names 0 /a, 1 /, 2 /a/b, 3 /a/c/d: the first has two components and the wire
   format of one *)
Example C81_names_ex : let s := nrun nst0 ex_ops in
  map (comps_of s) (ns_names s) = [[seg [97]; seg [99]]; []; [seg [97]; seg [98]]; [seg [97]; seg [99]; seg [100]]] /\
  map (fun n => t_val (no_wire n)) (ns_names s) =
    [[0; 1; 0; 1; 97]; []; [0; 1; 0; 1; 97; 0; 1; 0; 1; 98]; [0; 1; 0; 1; 97; 0; 1; 0; 1; 99; 0; 1; 0; 1; 100]] /\
  map (no_count s) (ns_names s) = [Ok 2; Err TypeError; Ok 2; Ok 3].
Proof. vm_compute. repeat split. Qed.
Example C81_keep_ex : let s := nrun nst0 ex_ops in reached s /\
  (exists n, nth_error (ns_names s) 0 = Some n /\ lent s n) /\ (exists n, nth_error (ns_names s) 2 = Some n /\ ~ lent s n /\ comps_of s n <> []) /\
  nth_error (ns_own s) 0 = Some 0%nat.
Proof.
  cbv zeta. split; [eexists; reflexivity|]. split; [eexists; split; [vm_compute; reflexivity|eexists; split; [reflexivity|vm_compute; now left]]|].
  split; [|vm_compute; reflexivity]. eexists; split; [vm_compute; reflexivity|]. vm_compute. split; [|discriminate]. intros (r & E & [<-|[]]). discriminate E.
Qed.
Example C81_items_ex : let s := nrun nst0 ex_ops in exists n, nth_error (ns_names s) 3 = Some n /\
  no_item s n 0 = Ok (IText [97]) /\ no_item s n (-1) = Ok (IText [100]) /\ no_item s n (-4) = Err IndexError /\
  no_component s n (-1) = Err AssertionError /\ no_component s n 1 = Ok (seg [99]) /\ no_item s n 3 = Err IndexError.
Proof. cbv zeta. eexists. split; [vm_compute; reflexivity|]. vm_compute. repeat split. Qed.
Example C81_chunk_ex : exists n1 n2 t1 t2 m1 m2,
  append_chunk_id [seg [97]] 65 = Ok n1 /\ name_tlv n1 = Ok t1 /\ name_parse t1 = Ok m1 /\
  append_chunk_id [seg [97]] 200 = Ok n2 /\ name_tlv n2 = Ok t2 /\ name_parse t2 = Ok m2 /\
  option_map comp_item (nth_error n1 1) = Some (Ok (IArray [65])) /\ option_map comp_item (nth_error m1 1) = Some (Ok (IText [65])) /\
  option_map comp_item (nth_error n2 1) = Some (Ok (IArray [200])) /\ option_map comp_item (nth_error m2 1) = Some (Err ValueError).
Proof. do 6 eexists. split; [vm_compute; reflexivity|]. repeat (split; [vm_compute; reflexivity|]). vm_compute. reflexivity. Qed.
Example C81_node_ex : let l := mkLink (Some [seg [97]]) None None in
  node_locator (mkNode (Some (mkND None None (Some [l]) [] [])) [] None) = Err AttributeError /\
  node_locator (mkNode (Some (mkND (Some 5) None None [] [])) [] None) = Ok (None, None) /\
  interest_list (mkMan None (MNode (mkNode None [] None)) None) true = Err RuntimeError.
Proof. vm_compute. repeat split. Qed.

Print Assumptions C81_builder.
Print Assumptions C81_group.
Print Assumptions C81_group_shared.
Print Assumptions C81_names_keep.
Print Assumptions C81_make.
Print Assumptions C81_append.
Print Assumptions C81_names_lent.
Print Assumptions C81_items.
Print Assumptions C81_items_wire.
Print Assumptions C81_chunk_item.
Print Assumptions C81_node_locator.
Print Assumptions C81_interest_list.
