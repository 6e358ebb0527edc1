(* Properties of traversals: scoping of name constructors, order, validation. *)
From Coq Require Import ZArith List Bool Lia ZifyBool.
From Verif Require Import Py Float Tlv Core TlvProofs CoreProofs Spec Flic Crypto CryptoProofs PropsCrypto
  Optimizer Tree Store StoreProofs PropsStore Traversal TraversalSpec TraversalProofs.
Import ListNotations.
Open Scope Z_scope.

(* a manifest in the clear *)
Definition clear (p : packet) (n : node) : Prop :=
  exists c m, p_body p = BCO c /\ co_ptype c = Some PT_MANIFEST /\ man_from_content c = Ok m /\ m_node m = MNode n.
(* an encrypted manifest met without a key store *)
Definition keyless (p : packet) (e : exn) : Prop :=
  exists c m ct, p_body p = BCO c /\ co_ptype c = Some PT_MANIFEST /\ man_from_content c = Ok m /\ m_node m = MEnc ct /\
    e = match m_ctx m with None => ValueError | Some _ => AttributeError end.

(* what was observed of a traversal agrees with the tree t *)
Definition shows {P} (wr : bool) (t : ptree) (x : res unit * tst P) : Prop :=
  fst x = match pt_stop t with None => Ok tt | Some e => Err e end /\
  ts_count (snd x) = zlen (visited t) /\
  ts_out (snd x) = if wr then flat_map data_of (visited t) else [].

(** * C44: a traversal visits and writes in preorder, every packet validated *)

Lemma traverse_sound P get wr ks (I : option (dcache P) -> Prop) (opens : packet -> node -> Prop)
    (sealed : packet -> exn -> Prop) fuel root h r s' :
  (forall p b m s r s', p_body p = BCO b -> co_ptype b = Some PT_MANIFEST ->
    man_from_content b = Ok m -> I (ts_dc s) -> t_decrypt P m s = (r, s') ->
    I (ts_dc s') /\ match r with Ok m' => exists n, m_node m' = MNode n /\ opens p n | Err e => sealed p e end) ->
  I (ts_dc (tst_new P ks)) ->
  traverse P get wr fuel root h (tst_new P ks) = (r, s') -> r <> Err OutOfFuel ->
  (exists e, get root h = Err e /\ r = Err e /\ s' = tst_new P ks) \/
  (exists p e, get root h = Ok p /\ validate_packet P ks p = Err e /\ r = Err e /\ s' = tst_new P ks) \/
  exists t, get root h = Ok (pt_packet t) /\
    walk get (validate_packet P ks) wr opens sealed [] t /\
    Forall (fun p => validate_packet P ks p = Ok tt) (visited t) /\ shows wr t (r, s').
Proof.
  unfold traverse, sbind, lift, validate, sget. intros HD HI H N. destruct (get root h) as [p|e].
  2:{ left. exists e. injection H as <- <-. auto. }
  right. unfold sbind, lift in H.
  replace (ts_keystore P (tst_new P ks)) with ks in H by (destruct ks; reflexivity).
  destruct (validate_packet P ks p) as [[]|e] eqn:Ev.
  2:{ left. exists p, e. injection H as <- <-. auto. }
  right. destruct (preorder_sound P get wr ks I opens sealed HD fuel [] [] cache_of_nil (Forall_nil _) _ _ _ _ H)
    as (t & W & <- & -> & (A & B & C) & _).
  { destruct ks; reflexivity. } { assumption. } { assumption. }
  exists t. split; [reflexivity|]. split; [exact W|]. split; [eapply walk_validated; eassumption|].
  split; [reflexivity|]. split; [exact A|exact B].
Qed.

(* Whatever the store answers: the root is missing, the root is invalid, or the
   traversal visits the packets of a tree given by the pointers, in preorder.
   It writes the data in it, counts its packets, every packet in it is valid,
   and it ends with the first failure.  (OutOfFuel: Python's RecursionError.) *)
Theorem C44_traversal P get wr ks fuel root h r s' :
  traverse P get wr fuel root h (tst_new P ks) = (r, s') -> r <> Err OutOfFuel ->
  (exists e, get root h = Err e /\ r = Err e /\ s' = tst_new P ks) \/
  (exists p e, get root h = Ok p /\ validate_packet P ks p = Err e /\ r = Err e /\ s' = tst_new P ks) \/
  exists t, get root h = Ok (pt_packet t) /\
    walk get (validate_packet P ks) wr (readable P) (fun p _ => encrypted p) [] t /\
    Forall (fun p => validate_packet P ks p = Ok tt) (visited t) /\ shows wr t (r, s').
Proof. apply traverse_sound with (I := fun _ => True); [|exact I]. intros. eapply decrypts_readable; eassumption. Qed.

(* Without key store, encrypted manifests are refused. *)
Theorem C44_without_keys P get wr fuel root h r s' :
  traverse P get wr fuel root h (tst_new P None) = (r, s') -> r <> Err OutOfFuel ->
  (exists e, get root h = Err e /\ r = Err e /\ s' = tst_new P None) \/
  (exists p e, get root h = Ok p /\ validate_packet P None p = Err e /\ r = Err e /\ s' = tst_new P None) \/
  exists t, get root h = Ok (pt_packet t) /\
    walk get (validate_packet P None) wr clear keyless [] t /\
    Forall (fun p => validate_packet P None p = Ok tt) (visited t) /\ shows wr t (r, s').
Proof.
  apply traverse_sound with (I := fun d => d = None); [|reflexivity]. intros p b m s x y Eb Et Em Hs H.
  unfold t_decrypt, is_encrypted in H. destruct (m_node m) as [n|ct] eqn:En; cbn [negb] in H.
  - injection H as <- <-. split; [assumption|]. exists n. split; [assumption|]. exists b, m. auto.
  - destruct (m_ctx m) as [c|] eqn:Ec; [rewrite Hs in H|]; injection H as <- <-; (split; [assumption|]);
      exists b, m, ct; rewrite Ec; auto 6.
Qed.

(* Conversely every tree of plaintext manifests is what a deep enough
   traversal visits, with any key store. *)
Theorem C44_complete P get wr ks fuel root h t :
  get root h = Ok (pt_packet t) -> validate_packet P ks (pt_packet t) = Ok tt ->
  walk get (validate_packet P ks) wr clear (fun _ _ => False) [] t -> (depth t <= fuel)%nat ->
  shows wr t (traverse P get wr fuel root h (tst_new P ks)).
Proof.
  intros Hg Hv W L. unfold traverse, sbind at 1, lift. rewrite Hg. unfold sbind, validate, sget, sbind, lift.
  replace (ts_keystore P (tst_new P ks)) with ks by (destruct ks; reflexivity). rewrite Hv.
  destruct (proj1 (complete P get wr ks (fun _ => True)) [] t) with (f := fuel) (c := @nil (Z * impl)) (s := tst_new P ks)
    as (s' & E & (A & B & _) & _); auto.
  - eapply walk_mono; [| |exact W]; [|contradiction]. intros p n (c & m & E1 & E2 & E3 & E4).
    exists c, m. split; [assumption|]. split; [assumption|]. split; [assumption|]. intros s _. exists m, s.
    unfold t_decrypt, is_encrypted. rewrite E4. cbn [negb]. auto.
  - apply cache_of_nil.
  - constructor.
  - destruct ks; reflexivity.
  - rewrite E. split; [reflexivity|]. split; [exact A|exact B].
Qed.

(* Without key store the trees are exactly those where encrypted manifests are
   refused. *)
Theorem C44_complete_without_keys P get wr fuel root h t :
  get root h = Ok (pt_packet t) -> validate_packet P None (pt_packet t) = Ok tt ->
  walk get (validate_packet P None) wr clear keyless [] t -> (depth t <= fuel)%nat ->
  shows wr t (traverse P get wr fuel root h (tst_new P None)).
Proof.
  intros Hg Hv W L. unfold traverse, sbind at 1, lift. rewrite Hg. unfold sbind, validate, sget, sbind, lift.
  replace (ts_keystore P (tst_new P None)) with (@None (keystore P)) by reflexivity. rewrite Hv.
  destruct (proj1 (complete P get wr None (fun d => d = None)) [] t) with (f := fuel) (c := @nil (Z * impl)) (s := tst_new P None)
    as (s' & E & (A & B & _) & _); auto.
  - eapply walk_mono; [| |exact W].
    + intros p n (c & m & E1 & E2 & E3 & E4).
      exists c, m. split; [assumption|]. split; [assumption|]. split; [assumption|]. intros s Hs. exists m, s.
      unfold t_decrypt, is_encrypted. rewrite E4. cbn [negb]. auto.
    + intros p e (c & m & ct & E1 & E2 & E3 & E4 & ->).
      exists c, m. split; [assumption|]. split; [assumption|]. split; [assumption|]. intros s Hs. exists s.
      unfold t_decrypt, is_encrypted. rewrite E4. cbn [negb]. destruct (m_ctx m); rewrite ?Hs; (split; [reflexivity|first [assumption|reflexivity]]).
  - apply cache_of_nil.
  - constructor.
  - reflexivity.
  - rewrite E. split; [reflexivity|]. split; [exact A|exact B].
Qed.

(* More depth never changes the outcome of a traversal that ended. *)
Theorem C44_fuel P get wr f f' root h s r s' : (f <= f')%nat ->
  traverse P get wr f root h s = (r, s') -> r <> Err OutOfFuel -> traverse P get wr f' root h s = (r, s').
Proof.
  intros L H N. unfold traverse in *. unfold sbind at 1, lift in H. unfold sbind at 1, lift. destruct (get root h) as [p|e]; [|assumption].
  unfold sbind at 1 in H. unfold sbind at 1. destruct (validate P p s) as [[[]|e] s1]; [|assumption].
  eapply preorder_more; eassumption.
Qed.

(** * C43: definitions are scoped to their branch *)

(* Every packet below the root was fetched by a pointer of its parent, under
   the definition of the pointer's id in the nearest manifest on the path to the
   root; [D] holds the definitions of exactly the manifests above it. *)
Theorem C43_scoped P get wr ks fuel root h r s' :
  traverse P get wr fuel root h (tst_new P ks) = (r, s') -> r <> Err OutOfFuel -> ts_count s' <> 0 ->
  exists t, shows wr t (r, s') /\ get root h = Ok (pt_packet t) /\
    forall D p n kids stop k, below t D (PT p (Some n) kids stop) -> In k kids ->
      readable P p n /\
      exists i d sch nm, In i (fst (node_iter (n_groups n))) /\
        resolve (hi_nc i) (node_defs n :: D) = Some d /\ nd_schema d = Some sch /\
        impl_name (mkImpl (hi_nc i) sch) (hi_seg i) = Ok nm /\ get nm (Some (hi_hash i)) = Ok (pt_packet k).
Proof.
  intros H N C. apply C44_traversal in H; [|assumption].
  destruct H as [(e & _ & _ & ->)|[(p & e & _ & _ & _ & ->)|(t & Hg & W & _ & S)]].
  1,2: exfalso; apply C; reflexivity.
  exists t. split; [assumption|]. split; [assumption|]. intros D p n kids stop k B K.
  pose proof (walk_below _ _ _ _ _ _ _ W _ _ B) as W'. rewrite app_nil_r in W'. inversion W'; subst; [contradiction|].
  split; [assumption|]. match goal with X : walks _ _ _ _ _ _ _ _ _ _ |- _ => apply walks_kid with (k := k) in X as [(i & Hi & Ht) _]; [|assumption] end.
  unfold target in Ht. destruct (resolve (hi_nc i) (node_defs n :: D)) as [d|] eqn:Er; [|discriminate].
  destruct (nd_schema d) as [sch|] eqn:Es; [|discriminate]. inv_bind Ht.
  exists i, d, sch, a. auto.
Qed.

(** ** Examples *)

(* names /a and /b *)
Definition nm_a : name := [mkComp 1 KBytes [97]].
Definition nm_b : name := [mkComp 1 KBytes [98]].
(* id 1 stands for the prefix n *)
Definition def1 (n : name) : ncdef := mkNcDef (Some 1) (Some (SPrefix (Some n) None None)).
(* a manifest packet with definitions ds and pointers hs, all with id 1 *)
Definition ex_man (n : name) (ds : list ncdef) (hs : list hashv) : res packet :=
  man_packet (mkMan None (MNode (mkNode (Some (mkND None None None [] ds))
    [mkHG (Some (mkGD None None None None (Some 1) None)) (Some hs)] None)) None) (Some n) None.
Definition ph := packet_hash (pr_sha toy).
(* The root defines id 1 as /a.  Its first child redefines it as /b and points
   to data /b; its second child is data that must be found as /a. *)
Definition ex_store : res (hashv * list packet) :=
  d1 <- ex_pkt (Some nm_b) [1; 2] ;; h1 <- ph d1 ;;
  m <- ex_man nm_a [def1 nm_b] [h1] ;; hm <- ph m ;;
  d2 <- ex_pkt (Some nm_a) [3] ;; h2 <- ph d2 ;;
  root <- ex_man [] [def1 nm_a] [hm; h2] ;; hr <- ph root ;;
  Ok (hr, [root; m; d1; d2]).
Definition ex_traverse (fuel : nat) (keep : packet -> bool) : res (res unit * Z * list bytes) :=
  x <- ex_store ;;
  d <- mem_reader toy (filter keep (snd x)) ;;
  let '(r, s) := traverse toy (mem_get d) true fuel (Some []) (Some (fst x)) (tst_new toy None) in
  Ok (r, ts_count s, ts_out s).
Definition is_named (n : name) (p : packet) : bool :=
  match p_body p with BCO c => match co_name c with Some m => name_eq m n | None => false end | _ => false end.
(* all found: both data objects in order, four packets *)
Example C43_ex : ex_traverse 3 (fun _ => true) = Ok (Ok tt, 4, [[1; 2]; [3]]).
Proof. vm_compute. reflexivity. Qed.
(* without the object /b the traversal stops before /a *)
Example C44_missing_ex : ex_traverse 3 (fun p => negb (is_named nm_b p)) = Ok (Err KeyError, 2, []).
Proof. vm_compute. reflexivity. Qed.
Example C44_fuel_ex : ex_traverse 2 (fun _ => true) = Ok (Err OutOfFuel, 2, []).
Proof. vm_compute. reflexivity. Qed.
(* an object whose checksum is wrong is counted out before its use *)
Definition ex_bad_crc : res packet :=
  p <- ex_pkt (Some nm_a) [3] ;; Ok (mkPkt (p_hdr p) (p_body p) (Some VCrc32c) (Some [0; 0; 0; 0])).
Example C44_invalid_ex : match ex_bad_crc with
  | Ok p => let '(r, s) := traverse toy (fun _ _ => Ok p) true 3 None None (tst_new toy None) in
            r = Err ValueError /\ ts_count s = 0 /\ ts_out s = []
  | Err _ => False end.
Proof. vm_compute. auto. Qed.
(* the hypotheses of C44_complete are met by this store *)
Example C44_complete_ex : exists d h t, mem_get d (Some []) (Some h) = Ok (pt_packet t) /\
  validate_packet toy None (pt_packet t) = Ok tt /\
  walk (mem_get d) (validate_packet toy None) true clear keyless [] t /\
  zlen (visited t) = 4 /\ flat_map data_of (visited t) = [[1; 2]; [3]] /\ pt_stop t = None.
Proof.
  assert (match ex_store with Ok x => match mem_reader toy (snd x) with
    | Ok d => let '(r, s) := traverse toy (mem_get d) true 3 (Some []) (Some (fst x)) (tst_new toy None) in
              r = Ok tt /\ ts_count s = 4 /\ ts_out s = [[1; 2]; [3]]
    | _ => False end | _ => False end) as H by (vm_compute; auto).
  destruct ex_store as [[h ps]|]; [|contradiction]. destruct (mem_reader toy (snd (h, ps))) as [d|]; [|contradiction].
  cbn [fst] in H. exists d, h. destruct (traverse toy (mem_get d) true 3 (Some []) (Some h) (tst_new toy None)) as [r s] eqn:T.
  destruct H as (-> & C & O).
  pose proof (C44_without_keys _ _ _ _ _ _ _ _ T ltac:(discriminate)) as [(e & _ & X & _)|[(p & e & _ & _ & X & _)|(t & Hg & W & F & S)]].
  1,2: discriminate.
  exists t. split; [assumption|]. split; [destruct t; inversion F; assumption|]. split; [assumption|].
  destruct S as (S1 & S2 & S3). cbn [fst snd] in *.
  split; [congruence|]. split; [congruence|]. destruct (pt_stop t); [discriminate|reflexivity].
Qed.

Print Assumptions C44_traversal.
Print Assumptions C44_without_keys.
Print Assumptions C44_complete.
Print Assumptions C44_complete_without_keys.
Print Assumptions C44_fuel.
Print Assumptions C43_scoped.
