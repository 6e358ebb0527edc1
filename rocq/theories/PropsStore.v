(* C42, C54: packet stores. *)
From Coq Require Import ZArith List Bool Lia ZifyBool.
From Verif Require Import Py Float Tlv Core TlvProofs FloatProofs CoreProofs Spec PropsCore Flic Crypto CryptoProofs
  PropsCrypto Optimizer Tree PropsChunk Store StoreSpec StoreProofs.
Import ListNotations.
Open Scope Z_scope.
Opaque tlv_make tlv_wire tlv_deserialize.

(** * C42: the memory store behaves like a map from hashes *)

(* What get answers when the packet p is stored under the hash asked for. *)
Definition answer (asked : option name) (p : packet) : res packet :=
  match body_name p, asked with
  | None, _ => Ok p
  | Some n, Some m => if name_eq m n then Ok p else Err ValueError
  | Some _, None => Err AttributeError
  end.

(* After any puts: the first packet put with the hash. *)
Theorem C42_get : forall P ps s, foldM (mem_put P) mem_new ps = Ok s -> forall nm h,
  (absent P h ps -> mem_get (me_hash s) nm (Some h) = Err KeyError) /\
  (forall p, first_with P h ps p -> mem_get (me_hash s) nm (Some h) = answer nm p) /\
  mem_get (me_hash s) nm None = Err KeyError.
Proof.
  intros P ps s H nm h. apply minv_puts in H. pose proof (mi_get _ _ _ H h) as G. unfold mem_get.
  split; [|split; [|reflexivity]].
  - intros A. destruct (dict_get hashv_key_eqb h (me_hash s)) as [p|]; [|reflexivity]. exfalso.
    destruct G as (l1 & l2 & -> & E & _). apply (A p); [apply in_or_app; right; left; reflexivity|assumption].
  - intros p F. destruct (dict_get hashv_key_eqb h (me_hash s)) as [q|].
    + rewrite (first_with_unique _ _ _ _ _ F G). unfold answer, check_name. destruct (body_name q) as [n|]; [|reflexivity].
      destruct nm as [m|]; [|reflexivity]. cbn [opt_name_eq bind]. destruct (name_eq m n); reflexivity.
    + exfalso. apply (G p); [eapply first_with_in; eassumption|]. destruct F as (? & ? & _ & E & _). exact E.
Qed.
(* A named packet answers to its own name and to no other; name_eq on encodable
   names is equality of all components. *)
Theorem C42_own_name : forall p w n m, packet_wire p = Ok w -> body_name p = Some n ->
  (m = n -> answer (Some m) p = Ok p) /\ (m <> n -> answer (Some m) p = Err ValueError).
Proof.
  intros p w n m Hw Hn. unfold answer. rewrite Hn. destruct (packet_name_ok _ _ _ Hw Hn) as (t & Ht). split.
  - intros ->. rewrite (name_eq_refl _ _ Ht). reflexivity.
  - intros Hm. destruct (name_eq m n) eqn:E; [|reflexivity]. apply name_eq_true in E. contradiction.
Qed.
(* == on names is equality of all components, with their Python types. *)
Theorem C07_names_equal_iff : forall a b t, name_tlv a = Ok t -> (name_eq a b = true <-> a = b).
Proof. intros a b t H. split; [apply name_eq_true|]. intros <-. eapply name_eq_refl. exact H. Qed.
Print Assumptions C07_names_equal_iff.
(* the same bytes under another type make another name *)
Example C07_names_ex : (exists t, name_tlv [mkComp 1 KBytes [97]; mkComp 5 KArray [0]] = Ok t) /\
  name_eq [mkComp 1 KBytes [97]; mkComp 5 KArray [0]] [mkComp 1 KBytes [97]; mkComp 16 KArray [0]] = false.
Proof. split; [eexists|]; vm_compute; reflexivity. Qed.
(* Every hash is either absent or has a first packet. *)
Theorem C42_total : forall P ps s h, foldM (mem_put P) mem_new ps = Ok s ->
  absent P h ps \/ exists p, first_with P h ps p.
Proof.
  intros P ps s h H. apply minv_puts in H. pose proof (mi_get _ _ _ H h) as G.
  destruct (dict_get hashv_key_eqb h (me_hash s)) as [p|]; eauto.
Qed.
Lemma mem_distinct P ps s : foldM (mem_put P) mem_new ps = Ok s ->
  let ds := rev (map snd (me_hash s)) in
  NoDup ds /\ (forall p, In p ds <-> exists h, first_with P h ps p) /\ mem_len s = zlen ds.
Proof.
  intros H ds. apply minv_puts in H. unfold ds.
  split; [|split].
  - apply NoDup_rev. pose proof (mi_keys _ _ _ H) as K. pose proof (mi_hashes _ _ _ H) as F.
    induction (me_hash s) as [|[k v] d IH]; cbn [map fst snd] in *; [constructor|].
    inversion K as [|? ? K1 K2]; inversion F as [|? ? F1 F2]; subst. constructor; [|apply IH; assumption].
    intros Hv. apply K1. apply in_map_iff in Hv as ([k' v'] & E & Hin). cbn [snd] in E. subst v'.
    assert (k = k') as ->; [|apply in_map_iff; exists (k', v); auto].
    rewrite Forall_forall in F2. specialize (F2 _ Hin). cbn [fst snd] in *.
    destruct F1 as (? & ? & _ & E1 & _). destruct F2 as (? & ? & _ & E2 & _). congruence.
  - intros p. rewrite <- in_rev. split.
    + intros Hp. apply in_map_iff in Hp as ([k v] & <- & Hin). pose proof (mi_hashes _ _ _ H) as F.
      rewrite Forall_forall in F. exists k. apply (F _ Hin).
    + intros (h & F). pose proof (mi_get _ _ _ H h) as G. destruct (dict_get hashv_key_eqb h (me_hash s)) as [q|] eqn:D.
      * rewrite (first_with_unique _ _ _ _ _ F G). clear - D. induction (me_hash s) as [|[k v] d IH]; [discriminate|].
        cbn [dict_get] in D. cbn [map snd]. destruct (hashv_key_eqb k h); [left; congruence|right; auto].
      * exfalso. apply (G p); [eapply first_with_in; eassumption|]. destruct F as (? & ? & _ & E & _). exact E.
  - unfold mem_len, zlen. rewrite rev_length, map_length. reflexivity.
Qed.
(* The counters: all packets, and one packet of each hash. *)
Theorem C42_counters : forall P ps s, foldM (mem_put P) mem_new ps = Ok s ->
  me_packets s = ps /\ wire_bytes ps (me_bytes s) /\
  exists ds, NoDup ds /\ (forall p, In p ds <-> exists h, first_with P h ps p) /\
    mem_len s = zlen ds /\ wire_bytes ds (me_bytes_hash s).
Proof.
  intros P ps s H0. destruct (mem_distinct P ps s H0) as (A & B & C). pose proof (minv_puts P ps s H0) as H.
  split; [apply H|]. split; [apply H|]. exists (rev (map snd (me_hash s))). repeat split; try assumption; apply B || apply H.
Qed.
(* Putting packets never fails. *)
Theorem C42_put_succeeds : forall P ps, sha_ok P -> (forall p, In p ps -> exists w, packet_wire p = Ok w) ->
  exists s, foldM (mem_put P) mem_new ps = Ok s.
Proof.
  intros P ps HS. generalize (mem_new). induction ps as [|p ps IH]; intros s H; cbn [foldM]; [eauto|].
  destruct (H p (or_introl eq_refl)) as (w & Hw). destruct (packet_hash_intro P p w HS Hw) as (h & Hh).
  unfold mem_put, packet_len. rewrite Hw, Hh. cbn [bind].
  destruct (dict_get hashv_key_eqb h (me_hash s)); cbn [bind]; apply IH; intros q Hq; apply H; right; assumption.
Qed.
(* A reader made from a list of packets keeps the last packet of each hash. *)
Theorem C42_list_reader : forall P ps d, mem_reader P ps = Ok d -> forall nm h,
  (absent P h ps -> mem_get d nm (Some h) = Err KeyError) /\
  (forall p, last_with P h ps p -> mem_get d nm (Some h) = answer nm p).
Proof.
  intros P ps d H nm h. pose proof (mem_reader_get _ _ _ H h) as G. unfold mem_get. split.
  - intros A. destruct (dict_get hashv_key_eqb h d) as [p|]; [|reflexivity]. exfalso.
    destruct G as (l1 & l2 & -> & E & _). apply (A p); [apply in_or_app; right; left; reflexivity|assumption].
  - intros p F. destruct (dict_get hashv_key_eqb h d) as [q|].
    + assert (p = q) as ->.
      { destruct F as (l1 & l2 & E1 & Hp & A), G as (k1 & k2 & E2 & Hq & B). rewrite E1 in E2.
        apply (f_equal (@rev packet)) in E2. rewrite !rev_app_distr in E2. cbn [rev] in E2. rewrite <- !app_assoc in E2.
        apply (first_with_unique P h (rev l2 ++ [p] ++ rev l1)).
        - exists (rev l2), (rev l1). split; [reflexivity|]. split; [assumption|]. intros x Hx. apply A. apply in_rev. assumption.
        - rewrite E2. exists (rev k2), (rev k1). split; [reflexivity|]. split; [assumption|]. intros x Hx. apply B. apply in_rev. assumption. }
      unfold answer, check_name. destruct (body_name q) as [n|]; [|reflexivity].
      destruct nm as [m|]; [|reflexivity]. cbn [opt_name_eq bind]. destruct (name_eq m n); reflexivity.
    + exfalso. destruct F as (l1 & l2 & -> & E & _). apply (G p); [apply in_or_app; right; left; reflexivity|assumption].
Qed.

(* three puts, two of them with the same hash *)
Definition ex_pkt (n : option name) (b : bytes) : res packet :=
  c <- create_data n (Some b) None None ;; create_content_object c.
Definition ex_nm : name := [mkComp 1 KBytes [97]].
Definition ex_puts : res (packet * packet * mem) :=
  p <- ex_pkt (Some ex_nm) [1; 2] ;; q <- ex_pkt None [3] ;;
  s <- foldM (mem_put toy) mem_new [p; q; p] ;; Ok (p, q, s).
Example C42_ex : match ex_puts with
  | Err _ => False
  | Ok (p, q, s) => exists hp hq, packet_hash (pr_sha toy) p = Ok hp /\ packet_hash (pr_sha toy) q = Ok hq /\ hp <> hq /\
      mem_get (me_hash s) (Some ex_nm) (Some hp) = Ok p /\ mem_get (me_hash s) None (Some hp) = Err AttributeError /\
      mem_get (me_hash s) (Some []) (Some hp) = Err ValueError /\ mem_get (me_hash s) None (Some hq) = Ok q /\
      mem_len s = 2 /\ me_bytes s = 32 + 22 + 32 /\ me_bytes_hash s = 32 + 22
  end.
Proof. vm_compute. eexists _, _. repeat split; discriminate. Qed.

(** * C54: the directory store *)

(* packets the package makes whose wire image can be parsed back (C09) *)
Definition storable (p : packet) : Prop :=
  exists c, wire_content c /\
    (create_content_object c = Ok p \/
     exists a v, decodable_alg a /\ create_signed_content_object c a v = Ok p).
Lemma storable_wf p : storable p -> exists w, packet_wf p /\ packet_wire p = Ok w.
Proof.
  intros (c & Wc & [H|(a & v & Wa & H)]).
  - unfold create_content_object in H. inv_bind H. inv_bind H. apply Ok_inj in H; subst p. rename a into tc, a0 into w.
    exists w. split; [|assumption]. pose proof (tlv_len_ge tc).
    eapply (packet_created c _ None None); try reflexivity; auto; try discriminate.
    cbn [p_hdr hdr_content f_plen]. lia.
  - unfold create_signed_content_object in H. inv_bind H. inv_bind H. inv_bind H. inv_bind H. apply Ok_inj in H; subst p.
    exists a3. split; [|assumption]. pose proof (tlv_len_ge a0). pose proof (tlv_len_ge a1). pose proof (tlv_len_ge a2).
    eapply (packet_created c _ (Some a) (Some v)); try reflexivity; auto; [congruence|cbn [p_hdr hdr_content f_plen]; lia].
Qed.
Lemma body_name_norm p : body_name (packet_norm p) = match p_body p with
  | BCO _ => option_map name_norm (body_name p) | BInterest n => n end.
Proof. unfold body_name, packet_norm. cbn [p_body]. destruct (p_body p) as [c|n]; reflexivity. Qed.
Lemma kinds_norm n : (forall c, In c n -> c_kind c = KBytes) <-> name_norm n = n.
Proof.
  induction n as [|[t k v] n IH]; cbn [name_norm map c_type c_val]; [split; auto; intros _ c []|].
  split.
  - intros H. f_equal; [f_equal; symmetry; apply (H _ (or_introl eq_refl))|]. apply IH. intros c Hc. apply H. right. assumption.
  - intros E. injection E as E1 E2. intros c [<-|Hc]; [symmetry; exact E1|]. apply IH; assumption.
Qed.

(* what the file of a packet that was put gives *)
Lemma dir_get_stored P uri_path (o : dwopt P) now s l1 p l2 w h nm : storable p -> do_nested o = false ->
  packet_wire p = Ok w -> packet_hash (pr_sha P) p = Ok h ->
  (forall q, In q l2 -> packet_hash (pr_sha P) q = Ok h -> packet_wire q = Ok w) ->
  dir_get uri_path now (dw_files (dir_puts P uri_path o (l1 ++ p :: l2) s)) nm (Some h) = check_name nm (packet_norm p).
Proof.
  intros Hs Hn Hw Hh Hl2. destruct (storable_wf _ Hs) as (w' & Wf & Hw'). assert (w' = w) as -> by congruence. set (d := dw_files _).
  assert (dict_get path_eqb (hash_path false h) d = Some w) as F by (apply dir_puts_file; assumption).
  unfold dir_get. replace (match nm with Some _ => _ | None => _ end) with
    (p0 <- load now d (hash_path false h) ;; check_name nm p0) by (destruct nm; reflexivity).
  unfold load. rewrite F, (packet_roundtrip now p w Wf Hw). reflexivity.
Qed.
Lemma check_norm p w : packet_wire p = Ok w -> (forall n c, body_name p = Some n -> In c n -> c_kind c = KBytes) ->
  check_name (body_name p) (packet_norm p) = Ok (packet_norm p).
Proof.
  intros Hw Hk. pose proof Hw as Hc. apply packet_wire_ok in Hc as (_ & c & _ & _ & _ & _ & Hb & _).
  destruct (body_name p) as [n|] eqn:En.
  - pose proof (body_name_norm p) as E. rewrite Hb, En in E. cbn [option_map] in E.
    assert (name_norm n = n) as Nn by (apply kinds_norm; intros; eapply Hk; [reflexivity|assumption]). rewrite Nn in E.
    rewrite (check_name_named _ _ _ E). destruct (packet_name_ok _ _ _ Hw En) as (t & Ht).
    rewrite (name_eq_refl _ _ Ht). reflexivity.
  - apply check_name_unnamed. rewrite body_name_norm, Hb, En. reflexivity.
Qed.
Lemma check_id p w n m c : packet_wire p = Ok w -> body_name p = Some m -> In c n -> c_kind c = KArray ->
  check_name (Some n) (packet_norm p) = Err ValueError.
Proof.
  intros Hw En Hc Hk. pose proof Hw as Hb. apply packet_wire_ok in Hb as (_ & c' & _ & _ & _ & _ & Hb & _).
  pose proof (body_name_norm p) as E. rewrite Hb, En in E. cbn [option_map] in E.
  rewrite (check_name_named _ _ _ E). destruct (name_eq n (name_norm m)) eqn:Q; [|reflexivity]. exfalso.
  apply name_eq_true in Q. assert (name_norm n = n) as N.
  { rewrite Q. unfold name_norm. rewrite map_map. apply map_ext. reflexivity. }
  pose proof (proj2 (kinds_norm n) N _ Hc) as K. congruence.
Qed.

(* Asking for the hash and the name of a packet that was put, after any other
   puts before and after it, gives a packet with the same wire image, exactly
   when the packet has no name or no component of its name holds an array (a
   chunk or manifest id); otherwise ValueError. *)
Theorem C54_get : forall P uri_path (o : dwopt P) now s l1 p l2 w h, storable p -> do_nested o = false ->
  packet_wire p = Ok w -> packet_hash (pr_sha P) p = Ok h ->
  (forall q, In q l2 -> packet_hash (pr_sha P) q = Ok h -> packet_wire q = Ok w) ->
  let d := dw_files (dir_puts P uri_path o (l1 ++ p :: l2) s) in
  (forall n c, body_name p = Some n -> In c n -> c_kind c = KBytes) ->
  exists p', dir_get uri_path now d (body_name p) (Some h) = Ok p' /\ packet_wire p' = Ok w /\
    same_packet p' p /\ packet_hash (pr_sha P) p' = Ok h.
Proof.
  intros P uri_path o now s l1 p l2 w h Hs Hn Hw Hh Hl2 d Hk. exists (packet_norm p).
  pose proof Hw as Hc. apply packet_wire_ok in Hc as (_ & c & _ & _ & _ & _ & Hb & _).
  split; [|split; [rewrite packet_wire_norm; assumption|split; [eapply same_packet_norm; eassumption|]]].
  - unfold d. erewrite dir_get_stored by eassumption. eapply check_norm; eassumption.
  - rewrite <- Hh. unfold packet_hash, packet_hash_input, packet_norm. cbn [p_body p_alg p_vpl]. rewrite Hb. cbn [body_wire].
    rewrite co_tlv_norm. reflexivity.
Qed.
Theorem C54_id_names_refuted : forall P uri_path (o : dwopt P) now s l1 p l2 w h n c, storable p -> do_nested o = false ->
  packet_wire p = Ok w -> packet_hash (pr_sha P) p = Ok h ->
  (forall q, In q l2 -> packet_hash (pr_sha P) q = Ok h -> packet_wire q = Ok w) ->
  body_name p = Some n -> In c n -> c_kind c = KArray ->
  dir_get uri_path now (dw_files (dir_puts P uri_path o (l1 ++ p :: l2) s)) (body_name p) (Some h) = Err ValueError.
Proof.
  intros P uri_path o now s l1 p l2 w h n c Hs Hn Hw Hh Hl2 En Hc Hk. erewrite dir_get_stored by eassumption.
  rewrite En. eapply check_id; eassumption.
Qed.
(* A hash that was never put is not found. *)
Theorem C54_missing : forall P uri_path (o : dwopt P) now ps nm h, absent P h ps -> all_bytes (h_val h) ->
  h_alg h = T_SHA_256 ->
  dir_get uri_path now (dw_files (dir_puts P uri_path o ps (mkDW [] [] 0 0 0 0 0 0))) nm (Some h) =
  Err FileNotFoundError.
Proof.
  intros P uri_path o now ps nm h A B Ha. unfold dir_get. set (d := dw_files _).
  assert (dict_get path_eqb (hash_path false h) d = None) as F.
  { unfold d. rewrite dir_puts_other; [reflexivity|apply Forall_forall; exact B|].
    intros q h' Hq Hh _ E. apply (A q Hq). rewrite Hh. destruct (packet_hash_bytes _ _ _ Hh) as [Ha' _].
    destruct h', h; cbn in *; congruence. }
  destruct nm; unfold load; rewrite F; reflexivity.
Qed.
(* Whatever the directory holds, asking by name alone never finds anything. *)
Theorem C54_by_name_refuted : forall uri_path now d n p, dir_get uri_path now d (Some n) None <> Ok p.
Proof.
  intros uri_path now d n p. cbn [dir_get]. unfold get_by_name.
  assert (forall q, get_by_link uri_path now d n <> Ok q) as G.
  { intros q H. unfold get_by_link in H. inv_bind H. inv_bind H. destruct (p_body a0) as [c|]; [|discriminate].
    destruct (is_link c); [|discriminate]. destruct (co_payload c); [|discriminate]. inv_bind H.
    destruct (l_digest a1); [|discriminate]. inv_bind H. discriminate. }
  destruct (get_by_link uri_path now d n) as [q|[]] eqn:E; try discriminate. exfalso. eapply G. reflexivity.
Qed.
(* The hash of a loaded packet is not checked. *)
Theorem C54_hash_unchecked_refuted : forall P uri_path now p w h, storable p -> packet_wire p = Ok w ->
  body_name p = None ->
  exists p', dir_get uri_path now [(hash_path false h, w)] None (Some h) = Ok p' /\ packet_wire p' = Ok w /\
    packet_hash (pr_sha P) p' = packet_hash (pr_sha P) p.
Proof.
  intros P uri_path now p w h Hs Hw Hn. destruct (storable_wf _ Hs) as (w' & Wf & Hw').
  assert (w' = w) as -> by congruence. exists (packet_norm p). cbn [dir_get]. unfold load. cbn [dict_get].
  assert (path_eqb (hash_path false h) (hash_path false h) = true) as -> by (apply path_eqb_spec; reflexivity).
  rewrite (packet_roundtrip now p w Wf Hw). cbn [bind].
  pose proof Hw as Hb. apply packet_wire_ok in Hb as (_ & c' & _ & _ & _ & _ & Hb & _).
  split; [apply check_name_unnamed; rewrite body_name_norm, Hb, Hn; reflexivity|].
  split; [rewrite packet_wire_norm; assumption|].
  unfold packet_hash, packet_hash_input, packet_norm. cbn [p_body p_alg p_vpl]. rewrite Hb. cbn [body_wire].
  rewrite co_tlv_norm. reflexivity.
Qed.
(* A writer with nested directories writes files its reader never finds. *)
Theorem C54_nested_refuted : forall P uri_path (o : dwopt P) now ps nm h, do_nested o = true -> all_bytes (h_val h) ->
  dir_get uri_path now (dw_files (dir_puts P uri_path o ps (mkDW [] [] 0 0 0 0 0 0))) nm (Some h) =
  Err FileNotFoundError.
Proof.
  intros P uri_path o now ps nm h Hn B. unfold dir_get. set (d := dw_files _).
  assert (dict_get path_eqb (hash_path false h) d = None) as F.
  { unfold d. rewrite dir_puts_other; [reflexivity|apply Forall_forall; exact B|congruence]. }
  destruct nm; unfold load; rewrite F; reflexivity.
Qed.
(* put a named and an id-named packet with links, and ask for both *)
Definition ex_uri (n : name) : res bytes := Ok (flat_map (fun c => 47 :: c_val c) n).
Definition ex_dwopt (nested : bool) : dwopt toy := mkDO toy true None nested (fl_of_Z 0).
Definition ex_dir (nested : bool) : res (packet * packet * packet * files) :=
  n5 <- append_chunk_id ex_nm 5 ;;
  p <- ex_pkt (Some ex_nm) [1; 2] ;; q <- ex_pkt (Some n5) [3] ;; r <- ex_pkt None [4] ;;
  Ok (p, q, r, dw_files (dir_puts toy ex_uri (ex_dwopt nested) [p; q; r] (mkDW [] [] 0 0 0 0 0 0))).
Definition dir_answer (nested : bool) (pick : packet * packet * packet * files -> packet)
    (nm : packet -> option name) (by_hash : bool) : res bytes :=
  x <- ex_dir nested ;; let '(_, _, _, d) := x in
  h <- packet_hash (pr_sha toy) (pick x) ;;
  p <- dir_get ex_uri (fl_of_Z 0) d (nm (pick x)) (if by_hash then Some h else None) ;; packet_wire p.
Definition pick1 (x : packet * packet * packet * files) : packet := let '(p, _, _, _) := x in p.
Definition pick2 (x : packet * packet * packet * files) : packet := let '(_, q, _, _) := x in q.
Definition pick3 (x : packet * packet * packet * files) : packet := let '(_, _, r, _) := x in r.
Example C54_ex :
  dir_answer false pick1 body_name true = (x <- ex_dir false ;; packet_wire (pick1 x)) /\
  dir_answer false pick2 body_name true = Err ValueError /\
  dir_answer false pick3 body_name true = (x <- ex_dir false ;; packet_wire (pick3 x)) /\
  dir_answer false pick1 body_name false = Err NameError /\
  dir_answer false pick1 (fun _ => Some []) false = Err NotImplementedError /\
  dir_answer true pick1 body_name true = Err FileNotFoundError /\
  (exists p q r d, ex_dir false = Ok (p, q, r, d) /\ length d = 5%nat).
Proof.
  repeat split; try (vm_compute; reflexivity).
  destruct (ex_dir false) as [[[[p q] r] d]|] eqn:E; [|vm_compute in E; discriminate].
  exists p, q, r, d. split; [reflexivity|].
  assert (match ex_dir false with Ok (_, _, _, d) => length d = 5%nat | Err _ => False end) as H by (vm_compute; reflexivity).
  rewrite E in H. exact H.
Qed.
Example C54_storable_ex : exists p c w, storable p /\ create_data (Some ex_nm) (Some [1; 2]) None None = Ok c /\
  p_body p = BCO c /\ packet_wire p = Ok w.
Proof.
  assert (match create_data (Some ex_nm) (Some [1; 2]) None None with
          | Ok c => match create_content_object c with Ok p => match packet_wire p with Ok _ => True | Err _ => False end | Err _ => False end
          | Err _ => False end) as H by (vm_compute; exact I).
  destruct (create_data (Some ex_nm) (Some [1; 2]) None None) as [c|] eqn:Ec; [|contradiction].
  destruct (create_content_object c) as [p|] eqn:Ep; [|contradiction]. destruct (packet_wire p) as [w|] eqn:Ew; [|contradiction].
  exists p, c, w. split; [|split; [reflexivity|split; [|assumption]]].
  - exists c. split; [|left; assumption]. unfold create_data in Ec. inv_bind Ec. apply Ok_inj in Ec. subst c.
    split; cbn [co_expiry co_fcid]; discriminate.
  - unfold create_content_object in Ep. inv_bind Ep. inv_bind Ep. apply Ok_inj in Ep. subst p. reflexivity.
Qed.
(* a directory where the packet of another hash lies under this hash *)
Example C54_hash_unchecked_ex : exists w p h, dir_get ex_uri (fl_of_Z 0) [(hash_path false h, w)] None (Some h) = Ok p /\
  packet_hash (pr_sha toy) p <> Ok h.
Proof.
  assert (match ex_pkt None [4] with
    | Ok p => match packet_wire p with
      | Ok w => match dir_get ex_uri (fl_of_Z 0) [(hash_path false ref_hash, w)] None (Some ref_hash) with
        | Ok p' => match packet_hash (pr_sha toy) p' with Ok h => hashv_key_eqb h ref_hash = false | _ => False end
        | Err _ => False end
      | Err _ => False end
    | Err _ => False end) as H by (vm_compute; reflexivity).
  destruct (ex_pkt None [4]) as [p|]; [|contradiction]. destruct (packet_wire p) as [w|]; [|contradiction].
  exists w. destruct (dir_get ex_uri (fl_of_Z 0) [(hash_path false ref_hash, w)] None (Some ref_hash)) as [p'|] eqn:E; [|contradiction].
  exists p', ref_hash. split; [assumption|]. destruct (packet_hash (pr_sha toy) p') as [h|]; [|contradiction].
  intros [= ->]. assert (hashv_key_eqb ref_hash ref_hash = true) by (apply hashv_key_eqb_spec; reflexivity). congruence.
Qed.

Print Assumptions C42_get.
Print Assumptions C42_own_name.
Print Assumptions C42_total.
Print Assumptions C42_counters.
Print Assumptions C42_put_succeeds.
Print Assumptions C42_list_reader.
Print Assumptions C54_get.
Print Assumptions C54_id_names_refuted.
Print Assumptions C54_missing.
Print Assumptions C54_by_name_refuted.
Print Assumptions C54_hash_unchecked_refuted.
Print Assumptions C54_nested_refuted.
