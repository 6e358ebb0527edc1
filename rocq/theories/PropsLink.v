(* C64, C65: the files and the counters of the directory writer. *)
From Coq Require Import ZArith List Bool Lia ZifyBool.
From Verif Require Import Py Tlv Float Core TlvProofs CoreProofs PropsCore Flic Crypto CryptoProofs
  PropsCrypto Optimizer Tree Store StoreSpec StoreProofs PropsStore Uri PropsUri.
Import ListNotations.
Open Scope Z_scope.
Opaque tlv_make tlv_wire tlv_deserialize.

(** * C64: link files *)

(* k is a packet whose content is a link (payload type 2) of name n to hash h *)
Definition links_to (k : packet) (n : name) (h : hashv) : Prop :=
  exists b, p_body k = BCO (mkCO (Some n) (Some 2) (Some b) None None) /\
    link_deserialize b = Ok (mkLink (Some n) None (Some h)).
(* the signer of links: CRC-32C unless one is given *)
Definition link_signer {P} (o : dwopt P) : signer P := match do_signer o with Some s => s | None => SCrc end.
(* the signing time, if any, survives being sent (see C20) *)
Definition link_time {P} (o : dwopt P) : Prop := forall sk, do_signer o = Some (SRsa sk) -> wire_time (do_now o).
(* the file at pth has a link of n to h, signed by the link signer *)
Definition link_at {P} (o : dwopt P) (d : files) (pth : path) (n : name) (h : hashv) : Prop :=
  forall now, exists k, load now d pth = Ok k /\ links_to k (name_norm n) h /\
    forall ks, sig_correct P -> knows P ks (link_signer o) -> validate_packet P ks k = Ok tt.

Section Links.
Variable P : prims.
Variable uri_path : name -> res bytes.
Variable o : dwopt P.
Notation hash := (packet_hash (pr_sha P)).
Notation dir_put := (dir_put P uri_path o).
Notation dir_puts := (dir_puts P uri_path o).

Lemma link_packet p k w : create_link_packet P o p = Ok k -> packet_wire k = Ok w -> link_time o ->
  exists n h, body_name p = Some n /\ hash p = Ok h /\
    forall now, exists k', packet_deserialize now w = Ok k' /\ links_to k' (name_norm n) h /\
      forall ks, sig_correct P -> knows P ks (link_signer o) -> validate_packet P ks k' = Ok tt.
Proof.
  unfold create_link_packet. intros H Hw T. inv_bind H. inv_bind H. rename a into h, a0 into c.
  unfold create_link_co in E0. inv_bind E0. apply guard_ok in E1. inv_bind E0. inv_bind E0. apply Ok_inj in E0.
  destruct (body_name p) as [n|]; [|discriminate]. exists n, h. split; [reflexivity|]. split; [assumption|]. intros now.
  fold (link_signer o) in H.
  assert (V : forall ks, sig_correct P -> knows P ks (link_signer o) -> validate_packet P ks k = Ok tt).
  { intros ks Hs Hk. eapply C21_signed_packet_validates; eassumption. }
  apply sign_content_ok in H as (al & tc & ta & v & Hal & _ & _ & _ & Hb & _ & _ & Hcr).
  assert (S : storable k).
  { exists c. split; [subst c; split; cbn [co_expiry co_fcid]; discriminate|]. right. exists al, v. split; [|exact Hcr].
    unfold link_signer in Hal. unfold link_time in T. destruct (do_signer o) as [[|sk]|]; cbn [signer_alg] in Hal.
    - inv_bind Hal. inv_bind Hal. inv_bind Hal. apply Ok_inj in Hal. subst al. exact I.
    - inv_bind Hal. inv_bind Hal. inv_bind Hal. apply Ok_inj in Hal. subst al. cbn [decodable_alg]. repeat split. eapply T. reflexivity.
    - inv_bind Hal. inv_bind Hal. inv_bind Hal. apply Ok_inj in Hal. subst al. exact I. }
  destruct (storable_wf _ S) as (w' & Wf & Hw'). assert (w' = w) as -> by congruence.
  exists (packet_norm k). split; [now apply packet_roundtrip|]. split.
  - exists a0. unfold packet_norm. cbn [p_body]. rewrite Hb. subst c. split; [reflexivity|].
    apply link_roundtrip in E2. exact E2.
  - intros ks Hs Hk. rewrite validate_norm. auto.
Qed.

(* what a successful put does *)
Lemma dir_put_inv p s s' : dir_put p s = (Ok tt, s') ->
  exists w h c, packet_wire p = Ok w /\ hash p = Ok h /\ p_body p = BCO c /\
    (if do_link o then match co_name c with
     | Some n => exists k pth wk, create_link_packet P o p = Ok k /\ name_path uri_path n = Ok pth /\ packet_wire k = Ok wk /\
         dw_files s' = dict_set pth wk (dict_set (hash_path (do_nested o) h) w (dw_files s))
     | None => dw_files s' = dict_set (hash_path (do_nested o) h) w (dw_files s)
     end else dw_files s' = dict_set (hash_path (do_nested o) h) w (dw_files s)) /\
    dw_bytes s' = dw_bytes s + zlen w /\
    match dict_get hashv_key_eqb h (dw_hash s) with
    | Some _ => dw_hash s' = dw_hash s /\ dw_bytes_hash s' = dw_bytes_hash s /\ dw_nman s' = dw_nman s /\
                dw_ndata s' = dw_ndata s /\ dw_bman s' = dw_bman s /\ dw_bdata s' = dw_bdata s
    | None => dw_hash s' = dict_set h p (dw_hash s) /\ dw_bytes_hash s' = dw_bytes_hash s + zlen w /\
        if is_manifest c
        then dw_nman s' = dw_nman s + 1 /\ dw_ndata s' = dw_ndata s /\ dw_bman s' = dw_bman s + zlen w /\ dw_bdata s' = dw_bdata s
        else dw_nman s' = dw_nman s /\ dw_ndata s' = dw_ndata s + 1 /\ dw_bman s' = dw_bman s /\ dw_bdata s' = dw_bdata s + zlen w
    end.
Proof.
  unfold Store.dir_put, packet_len, sbind, lift, smod. intros H.
  destruct (packet_wire p) as [w|] eqn:Hw; [|discriminate]. cbn [bind] in H.
  destruct (hash p) as [h|] eqn:Hh; [|discriminate]. unfold save, sbind, lift, smod in H. rewrite Hw in H.
  destruct (packet_wire_ok _ _ Hw) as (_ & c & _ & _ & _ & _ & Hb & _).
  set (s1 := set_files _ _) in H.
  assert (exists s2, write_link P uri_path o p s1 = (Ok tt, s2) /\ count_put (zlen w) h p s2 = (Ok tt, s') /\
    dw_hash s2 = dw_hash s1 /\ dw_bytes s2 = dw_bytes s1 /\ dw_bytes_hash s2 = dw_bytes_hash s1 /\ dw_nman s2 = dw_nman s1 /\
    dw_ndata s2 = dw_ndata s1 /\ dw_bman s2 = dw_bman s1 /\ dw_bdata s2 = dw_bdata s1 /\
    (if do_link o then match co_name c with
     | Some n => exists k pth wk, create_link_packet P o p = Ok k /\ name_path uri_path n = Ok pth /\ packet_wire k = Ok wk /\
         dw_files s2 = dict_set pth wk (dw_files s1)
     | None => dw_files s2 = dw_files s1
     end else dw_files s2 = dw_files s1)) as (s2 & _ & H2 & A1 & A2 & A3 & A4 & A5 & A6 & A7 & A8).
  { destruct (write_link P uri_path o p s1) as [[[]|e] s2] eqn:W; [|discriminate]. exists s2. split; [reflexivity|]. split; [exact H|].
    clear H. unfold write_link in W. rewrite Hb in W. unfold body_name in W. rewrite Hb in W. destruct (do_link o).
    2:{ injection W as <-. repeat split. }
    destruct (co_name c) as [n|]; [|injection W as <-; repeat split].
    unfold sbind, lift in W. destruct (create_link_packet P o p) as [k|]; [|discriminate].
    destruct (name_path uri_path n) as [pth|]; [|discriminate]. unfold save, sbind, lift, smod in W.
    destruct (packet_wire k) as [wk|] eqn:Ek; [|discriminate]. injection W as <-. repeat (split; [reflexivity|]).
    exists k, pth, wk. repeat split; assumption. }
  exists w, h, c. split; [reflexivity|]. split; [reflexivity|]. split; [exact Hb|]. unfold count_put in H2. unfold sbind, sget in H2. rewrite A1 in H2.
  change (dw_hash s1) with (dw_hash s) in *. change (dw_bytes s1) with (dw_bytes s + zlen w) in *.
  change (dw_bytes_hash s1) with (dw_bytes_hash s) in *. change (dw_nman s1) with (dw_nman s) in *.
  change (dw_ndata s1) with (dw_ndata s) in *. change (dw_bman s1) with (dw_bman s) in *.
  change (dw_bdata s1) with (dw_bdata s) in *.
  change (dw_files s1) with (dict_set (hash_path (do_nested o) h) w (dw_files s)) in *.
  destruct (dict_get hashv_key_eqb h (dw_hash s)) as [q|].
  - injection H2 as <-. repeat split; assumption.
  - rewrite Hb in H2. destruct (is_manifest c); unfold smod in H2; injection H2 as <-;
      cbn [dw_files dw_hash dw_bytes dw_bytes_hash dw_nman dw_ndata dw_bman dw_bdata];
      rewrite ?A2, ?A3, ?A4, ?A5, ?A6, ?A7; repeat split; assumption.
Qed.

(* the files of any put: of the packet and its link *)
Lemma link_hash_path n pth nested h : name_path uri_path n = Ok pth -> bytes_ok (h_val h) -> pth <> hash_path nested h.
Proof.
  unfold name_path, link_file. intros H B. inv_bind H. inv_bind E. apply Ok_inj in E, H. subst a pth. destruct nested.
  - unfold nest, hash_path. discriminate.
  - cbn [nest]. apply hash_path_link. assumption.
Qed.
Lemma dir_put_files p s pth : dict_get path_eqb pth (dw_files (snd (dir_put p s))) = dict_get path_eqb pth (dw_files s) \/
  (exists w h, packet_wire p = Ok w /\ hash p = Ok h /\ pth = hash_path (do_nested o) h /\
     dict_get path_eqb pth (dw_files (snd (dir_put p s))) = Some w) \/
  (exists n k wk, do_link o = true /\ body_name p = Some n /\ name_path uri_path n = Ok pth /\ create_link_packet P o p = Ok k /\
     packet_wire k = Ok wk /\ dict_get path_eqb pth (dw_files (snd (dir_put p s))) = Some wk).
Proof.
  unfold Store.dir_put, packet_len, sbind, lift, smod.
  destruct (packet_wire p) as [w|] eqn:Hw; [|left; reflexivity]. cbn [bind].
  destruct (hash p) as [h|] eqn:Hh; [|left; reflexivity].
  unfold save, sbind, lift, smod. rewrite Hw. set (s1 := set_files _ _).
  assert (K1 : dict_get path_eqb pth (dw_files s1) = dict_get path_eqb pth (dw_files s) \/
     (pth = hash_path (do_nested o) h /\ dict_get path_eqb pth (dw_files s1) = Some w)).
  { unfold s1. cbn [set_files dw_files add_bytes]. destruct (path_eqb pth (hash_path (do_nested o) h)) eqn:Q.
    - apply path_eqb_spec in Q. right. split; [assumption|]. rewrite Q. apply file_set_same.
    - left. apply file_set_other. intros X. symmetry in X. apply path_eqb_spec in X. congruence. }
  assert (K2 : dict_get path_eqb pth (dw_files (snd (write_link P uri_path o p s1))) = dict_get path_eqb pth (dw_files s1) \/
    (exists n k wk, do_link o = true /\ body_name p = Some n /\ name_path uri_path n = Ok pth /\ create_link_packet P o p = Ok k /\
     packet_wire k = Ok wk /\ dict_get path_eqb pth (dw_files (snd (write_link P uri_path o p s1))) = Some wk)).
  { unfold write_link. destruct (do_link o); [|left; reflexivity]. destruct (p_body p); [|left; reflexivity].
    destruct (body_name p) as [n|]; [|left; reflexivity].
    unfold sbind, lift. destruct (create_link_packet P o p) as [k|]; [|left; reflexivity].
    destruct (name_path uri_path n) as [q|] eqn:Eq; [|left; reflexivity].
    unfold save, sbind, lift, smod. destruct (packet_wire k) as [wk|] eqn:Ek; [|left; reflexivity].
    cbn [snd set_files dw_files]. destruct (path_eqb pth q) eqn:Q.
    - apply path_eqb_spec in Q. subst q. right. exists n, k, wk. repeat split; try assumption. apply file_set_same.
    - left. apply file_set_other. intros X. symmetry in X. apply path_eqb_spec in X. congruence. }
  destruct (write_link P uri_path o p s1) as [[u|e] s2]; cbn [snd] in *; rewrite ?count_put_files;
    (destruct K2 as [K2|K2]; [rewrite K2; destruct K1 as [K1|(K1 & K1')]; [left; exact K1|right; left; exists w, h; auto]|right; right; exact K2]).
Qed.
End Links.

(* C64.  A successful put of a named content object leaves a link file under
   its name that points to its hash, until a packet whose name has the same
   link file is put. *)
Theorem C64_link : forall P uri_path (o : dwopt P) s l1 p l2 c n,
  do_link o = true -> link_time o -> p_body p = BCO c -> co_name c = Some n ->
  fst (dir_put P uri_path o p (dir_puts P uri_path o l1 s)) = Ok tt ->
  (forall q m, In q l2 -> body_name q = Some m -> name_path uri_path m <> name_path uri_path n) ->
  exists pth h, name_path uri_path n = Ok pth /\ packet_hash (pr_sha P) p = Ok h /\
    link_at o (dw_files (dir_puts P uri_path o (l1 ++ p :: l2) s)) pth n h.
Proof.
  intros P uri_path o s l1 p l2 c n Hl T Hb Hn Hf Hd. unfold dir_puts. rewrite fold_left_app. cbn [fold_left].
  change (fold_left _ l1 s) with (dir_puts P uri_path o l1 s). set (s1 := dir_puts P uri_path o l1 s) in *.
  destruct (dir_put P uri_path o p s1) as [r s2] eqn:E. cbn [fst snd] in *. subst r.
  apply dir_put_inv in E as (w & h & c' & Hw & Hh & Hb' & F & _). rewrite Hb in Hb'. injection Hb' as <-. rewrite Hl, Hn in F.
  destruct F as (k & pth & wk & Hk & Hp & Hwk & F). exists pth, h. split; [assumption|]. split; [assumption|].
  assert (G : dict_get path_eqb pth (dw_files (fold_left (fun s p => snd (dir_put P uri_path o p s)) l2 s2)) = Some wk).
  { assert (G0 : dict_get path_eqb pth (dw_files s2) = Some wk) by (rewrite F; apply file_set_same).
    clear F. revert s2 G0. induction l2 as [|q l2 IH]; intros s2 G0; [exact G0|]. cbn [fold_left]. apply IH.
    - intros q' m' Hq'. apply Hd. now right.
    - destruct (dir_put_files P uri_path o q s2 pth) as [A|[(w' & h' & _ & Hh' & E & _)|(m & _ & _ & _ & Em & E & _)]].
      + now rewrite A.
      + exfalso. apply (link_hash_path uri_path n pth (do_nested o) h' Hp); [|exact E]. apply (packet_hash_bytes P _ _ Hh').
      + exfalso. apply (Hd q m); [now left|exact Em|]. now rewrite Hp, E. }
  intros now. destruct (link_packet P o p k wk Hk Hwk T) as (n' & h' & Hn' & Hh' & K).
  assert (n' = n) as -> by (unfold body_name in Hn'; rewrite Hb in Hn'; congruence). assert (h' = h) as -> by congruence.
  destruct (K now) as (k' & Hk' & Kl & Kv). exists k'. unfold load. rewrite G. auto.
Qed.

(* Nothing else is written: every file is a packet under its hash or a link
   under its name. *)
Theorem C64_files : forall P uri_path (o : dwopt P) ps s pth b,
  link_time o -> dict_get path_eqb pth (dw_files s) = None ->
  dict_get path_eqb pth (dw_files (dir_puts P uri_path o ps s)) = Some b ->
  exists p h, In p ps /\ packet_hash (pr_sha P) p = Ok h /\
    ((packet_wire p = Ok b /\ pth = hash_path (do_nested o) h) \/
     exists n, do_link o = true /\ body_name p = Some n /\ name_path uri_path n = Ok pth /\
       link_at o (dw_files (dir_puts P uri_path o ps s)) pth n h).
Proof.
  intros P uri_path o ps s pth b T H0 H. unfold link_at, load. rewrite H.
  assert (G : exists p h, In p ps /\ packet_hash (pr_sha P) p = Ok h /\
    ((packet_wire p = Ok b /\ pth = hash_path (do_nested o) h) \/
     exists n, do_link o = true /\ body_name p = Some n /\ name_path uri_path n = Ok pth /\
       forall now, exists k, packet_deserialize now b = Ok k /\ links_to k (name_norm n) h /\
         forall ks, sig_correct P -> knows P ks (link_signer o) -> validate_packet P ks k = Ok tt)); [|exact G].
  revert b H. induction ps as [|p ps IH] using rev_ind; intros b H.
  - cbn [dir_puts fold_left] in H. congruence.
  - unfold dir_puts in H. rewrite fold_left_app in H. cbn [fold_left] in H.
    change (fold_left _ ps s) with (dir_puts P uri_path o ps s) in H.
    destruct (dir_put_files P uri_path o p (dir_puts P uri_path o ps s) pth) as [A|[(w & h & Hw & Hh & E & A)|(n & k & wk & Hl & Hn & Hp & Hk & Hwk & A)]].
    + rewrite A in H. destruct (IH b H) as (q & h & Hq & K). exists q, h. split; [apply in_or_app; now left|exact K].
    + rewrite A in H. injection H as ->. exists p, h. split; [apply in_or_app; right; now left|]. split; [assumption|]. left. auto.
    + rewrite A in H. injection H as ->. destruct (link_packet P o p k b Hk Hwk T) as (n' & h & Hn' & Hh & K).
      assert (n' = n) as -> by congruence. exists p, h. split; [apply in_or_app; right; now left|]. split; [assumption|].
      right. exists n. auto.
Qed.
Print Assumptions C64_link.
Print Assumptions C64_files.

(** ** Names of link files *)

(* code points that keep names of link files apart *)
Definition plain_char (c : Z) : Prop := scalar c = true /\ ~ In c [47; 63; 35; 9; 10; 13; 126].
(* a segment of such text, or a chunk id (16) or manifest id (130) as the package encodes it *)
Definition link_comp (c : comp) : Prop :=
  (c_type c = 1 /\ c_kind c = KBytes /\ exists t, utf8_encode t = Ok (c_val c) /\ Forall plain_char t) \/
  ((c_type c = T_CHUNKID \/ c_type c = T_MANIFESTID) /\ exists i, 0 <= i < 2 ^ 64 /\ number_to_array i = Ok (c_val c)).

Definition dval (l : text) (v : Z) : Z := fold_left (fun a c => a * 10 + (c - 48)) l v.
Lemma dec_fuel_val f : forall n acc, 0 <= n < 2 ^ Z.of_nat f -> dval (dec_fuel f n acc) 0 = dval acc n.
Proof.
  induction f as [|f IH]; intros n acc H.
  - change (2 ^ Z.of_nat 0) with 1 in H. assert (n = 0) as -> by lia. reflexivity.
  - cbn [dec_fuel]. destruct (n <? 10) eqn:E.
    + cbn [dval fold_left]. unfold dval. f_equal. rewrite Z.mod_small by lia. lia.
    + rewrite IH.
      * cbn [dval fold_left]. unfold dval. f_equal. Z.to_euclidean_division_equations. lia.
      * rewrite Nat2Z.inj_succ, Z.pow_succ_r in H by lia. Z.to_euclidean_division_equations. nia.
Qed.
Lemma dec_val n : 0 <= n -> dval (dec n) 0 = n.
Proof.
  intros H. unfold dec. rewrite dec_fuel_val; [reflexivity|]. split; [assumption|].
  pose proof (Z.log2_nonneg n). rewrite Nat2Z.inj_succ, Z2Nat.id by assumption.
  destruct (Z.eq_dec n 0) as [->|N]; [reflexivity|]. apply Z.log2_spec. lia.
Qed.
Lemma dec_inj n m : 0 <= n -> 0 <= m -> dec n = dec m -> n = m.
Proof. intros A B E. rewrite <- (dec_val n A), <- (dec_val m B), E. reflexivity. Qed.
Lemma dec_fuel_digits f : forall n acc, Forall (fun c => 48 <= c <= 57) acc -> Forall (fun c => 48 <= c <= 57) (dec_fuel f n acc).
Proof.
  induction f as [|f IH]; intros n acc F; [exact F|]. cbn [dec_fuel].
  assert (Forall (fun c => 48 <= c <= 57) (48 + n mod 10 :: acc)).
  { constructor; [Z.to_euclidean_division_equations; lia|assumption]. }
  destruct (n <? 10); auto.
Qed.
Lemma plain_ascii c : 36 <= c <= 46 \/ 48 <= c <= 57 \/ 61 = c \/ 65 <= c <= 122 -> plain_char c.
Proof. intros H. split; [unfold scalar; lia|]. cbn. lia. Qed.
Lemma plain_ascii_all l : forallb (fun c => (65 <=? c) && (c <=? 122) || (c =? 61)) l = true -> Forall plain_char l.
Proof.
  intros H. apply Forall_forall. intros c Hc. rewrite forallb_forall in H. specialize (H c Hc). cbn beta in H.
  apply plain_ascii. lia.
Qed.
Lemma plain_dec n : Forall plain_char (dec n).
Proof.
  assert (Forall (fun c => 48 <= c <= 57) (dec n)) as F by (apply dec_fuel_digits; constructor).
  eapply Forall_impl; [|exact F]. intros c H. apply plain_ascii. cbn beta in H. lia.
Qed.
Lemma plain_good c : plain_char c -> good_char c.
Proof. intros [A B]. split; [assumption|]. intros I. apply B. cbn in *. tauto. Qed.

Section Names.
Variable other : comp -> text.
Lemma id_text v : (exists i, 0 <= i < 2 ^ 64 /\ number_to_array i = Ok v) -> int_text (array_to_number v) = Ok tt.
Proof.
  intros (i & Hi & E). apply int_text_small. pose proof (number_to_array_ok _ _ E) as (_ & _ & A & _).
  rewrite A, Z.mod_small by assumption. assumption.
Qed.
Lemma repr_text c : link_comp c -> exists r, comp_repr other c = Ok r /\ r <> [] /\ Forall plain_char r.
Proof.
  pose proof (id_text (c_val c)) as T.
  intros [(Ht & Hk & t & E & F)|([Ht|Ht] & i & Hi & E)]; unfold comp_repr; rewrite Ht.
  - change (1 =? T_CHUNKID) with false. change (1 =? T_NAMESEGMENT) with true. cbv iota. rewrite Hk.
    rewrite (C63_utf8_encode _ _ E). cbn [bind]. eexists. split; [reflexivity|]. split; [discriminate|].
    apply Forall_app. split; [now apply plain_ascii_all|assumption].
  - rewrite Z.eqb_refl, T by eauto. cbn [bind]. eexists. split; [reflexivity|]. split; [discriminate|].
    apply Forall_app. split; [now apply plain_ascii_all|apply plain_dec].
  - change (T_MANIFESTID =? T_CHUNKID) with false. change (T_MANIFESTID =? T_NAMESEGMENT) with false. rewrite Z.eqb_refl. cbv iota.
    rewrite T by eauto. cbn [bind]. eexists. split; [reflexivity|]. split; [discriminate|].
    apply Forall_app. split; [now apply plain_ascii_all|apply plain_dec].
Qed.
Lemma repr_inj c c' r : link_comp c -> link_comp c' -> comp_repr other c = Ok r -> comp_repr other c' = Ok r ->
  c_type c = c_type c' /\ c_val c = c_val c'.
Proof.
  assert (I : forall i j v w, 0 <= i < 2 ^ 64 -> number_to_array i = Ok v -> 0 <= j < 2 ^ 64 -> number_to_array j = Ok w ->
    dec (array_to_number v) = dec (array_to_number w) -> v = w).
  { intros i j v w Hi Ev Hj Ew E. pose proof (number_to_array_ok _ _ Ev) as (_ & _ & A & _).
    pose proof (number_to_array_ok _ _ Ew) as (_ & _ & B & _). rewrite A, B, !Z.mod_small in E by assumption.
    apply dec_inj in E; [|lia..]. subst j. congruence. }
  intros [(Ht & Hk & t & E & F)|([Ht|Ht] & i & Hi & E)] [(Ht' & Hk' & t' & E' & F')|([Ht'|Ht'] & i' & Hi' & E')];
    unfold comp_repr; rewrite Ht, Ht';
    change (1 =? T_CHUNKID) with false; change (1 =? T_NAMESEGMENT) with true; change (T_CHUNKID =? T_CHUNKID) with true;
    change (T_MANIFESTID =? T_CHUNKID) with false; change (T_MANIFESTID =? T_NAMESEGMENT) with false;
    change (T_MANIFESTID =? T_MANIFESTID) with true; cbv iota; rewrite ?(id_text (c_val c)), ?(id_text (c_val c')) by eauto; rewrite ?Hk, ?Hk', ?(C63_utf8_encode _ _ E), ?(C63_utf8_encode _ _ E');
    cbn [bind]; intros H H'; apply Ok_inj in H, H'; rewrite <- H in H'; try discriminate; apply app_inv_head in H'.
  - subst t'. split; [reflexivity|congruence].
  - split; [reflexivity|]. symmetry. eapply (I i' i); eauto.
  - split; [reflexivity|]. symmetry. eapply (I i' i); eauto.
Qed.
Lemma reprs n : Forall link_comp n -> exists rs, mapM (comp_repr other) n = Ok rs /\ Forall (fun r => r <> [] /\ Forall plain_char r) rs.
Proof.
  intros F. induction F as [|c n C F (rs & E & R)]; [exists []; split; [reflexivity|constructor]|].
  destruct (repr_text c C) as (r & A & B). exists (r :: rs). cbn [mapM]. rewrite A, E. split; [reflexivity|]. now constructor.
Qed.
Lemma reprs_inj n : forall n' rs, Forall link_comp n -> Forall link_comp n' -> mapM (comp_repr other) n = Ok rs ->
  mapM (comp_repr other) n' = Ok rs -> name_view n = name_view n'.
Proof.
  induction n as [|c n IH]; intros [|c' n'] rs F F' H H'; cbn [mapM] in H, H'.
  - reflexivity.
  - exfalso. apply Ok_inj in H. subst rs. inv_bind H'. inv_bind H'. discriminate.
  - exfalso. apply Ok_inj in H'. subst rs. inv_bind H. inv_bind H. discriminate.
  - inv_bind H. inv_bind H. inv_bind H'. inv_bind H'. apply Ok_inj in H, H'. subst rs. injection H' as -> ->.
    inversion F; inversion F'; subst. destruct (repr_inj c c' a) as [A B]; try assumption.
    cbn [name_view map]. rewrite A, B. f_equal. eapply IH; eassumption.
Qed.
End Names.

Lemma sep_inj sep (a b x y : text) : ~ In sep a -> ~ In sep b -> a ++ sep :: x = b ++ sep :: y -> a = b /\ x = y.
Proof.
  revert b. induction a as [|c a IH]; intros [|d b] A B E; cbn [app] in E.
  - injection E as ->. auto.
  - exfalso. apply B. left. congruence.
  - exfalso. apply A. left. congruence.
  - injection E as -> E. destruct (IH b) as [-> ->]; auto; intros I; [apply A|apply B]; now right.
Qed.
Lemma join_cons sep t u l : join sep (t :: u :: l) = t ++ sep :: join sep (u :: l).
Proof. reflexivity. Qed.
Lemma join_inj sep l : forall l', Forall (fun t => t <> [] /\ ~ In sep t) l -> Forall (fun t => t <> [] /\ ~ In sep t) l' ->
  join sep l = join sep l' -> l = l'.
Proof.
  induction l as [|t l IH]; intros [|t' l'] F F' E.
  - reflexivity.
  - exfalso. inversion F' as [|? ? (N & _) _]; subst. destruct l'; cbn [join] in E; destruct t'; try contradiction; discriminate.
  - exfalso. inversion F as [|? ? (N & _) _]; subst. destruct l; cbn [join] in E; destruct t; try contradiction; discriminate.
  - inversion F as [|? ? (N & S) Fl]; subst. inversion F' as [|? ? (N' & S') Fl']; subst.
    destruct l as [|u l], l' as [|u' l'].
    + cbn [join] in E. congruence.
    + exfalso. rewrite join_cons in E. cbn [join] in E. apply S. rewrite E. apply in_or_app. right. now left.
    + exfalso. rewrite join_cons in E. cbn [join] in E. apply S'. rewrite <- E. apply in_or_app. right. now left.
    + rewrite !join_cons in E. apply sep_inj in E as [-> E]; [|assumption..]. f_equal. apply IH; assumption.
Qed.
Lemma join_chars (Q : Z -> Prop) sep l : Q sep -> Forall (fun t => Forall Q t) l -> Forall Q (join sep l).
Proof.
  intros S F. induction F as [|t l A F IH]; [constructor|]. destruct l as [|u l]; [exact A|]. rewrite join_cons.
  apply Forall_app. split; [exact A|]. now constructor.
Qed.
Definition tilde (c : Z) : Z := if c =? 47 then 126 else c.
Lemma tilde_id t : Forall plain_char t -> map tilde t = t.
Proof.
  intros F. induction F as [|c t [_ C] F IH]; [reflexivity|]. cbn [map]. rewrite IH. f_equal. unfold tilde.
  destruct (c =? 47) eqn:E; [exfalso; apply C; cbn; lia|reflexivity].
Qed.
Lemma join_tilde rs : Forall (fun r => r <> [] /\ Forall plain_char r) rs -> map tilde (join 47 rs) = join 126 rs.
Proof.
  intros F. induction F as [|r rs (_ & R) F IH]; [reflexivity|]. destruct rs as [|r' rs]; [now apply tilde_id|].
  rewrite !join_cons, map_app, tilde_id by assumption.
  exact (f_equal (fun x => r ++ 126 :: x) IH).
Qed.

(* the path of the URI, when a query or fragment may follow *)
Lemma link_path rs y : Forall (fun r => r <> [] /\ Forall plain_char r) rs ->
  match y with [] => True | c :: _ => c = 63 \/ c = 35 end ->
  rest_path (clean ((47 :: join 47 rs) ++ y)) = 47 :: join 47 rs.
Proof.
  intros R Y.
  assert (G : Forall (fun c => c = 47 \/ good_char c) (47 :: join 47 rs)).
  { constructor; [now left|]. apply join_chars; [now left|]. eapply Forall_impl; [|exact R]. intros r (_ & F).
    eapply Forall_impl; [|exact F]. intros c C. right. now apply plain_good. }
  assert (C : clean (47 :: join 47 rs) = 47 :: join 47 rs).
  { revert G. generalize (47 :: join 47 rs). intros l G. induction G as [|c l Gc G IH]; [reflexivity|].
    change (c :: l) with ([c] ++ l). rewrite clean_app, IH. f_equal. destruct Gc as [->|Gc]; [reflexivity|].
    apply good_clean. now constructor. }
  rewrite clean_app, C.
  assert (Y' : match clean y with [] => True | c :: _ => c = 63 \/ c = 35 end).
  { destruct y as [|c y]; [exact I|]. destruct Y as [->| ->]; cbn; auto. }
  revert Y'. generalize (clean y). intros z Z. unfold rest_path.
  assert (S : skip_authority ((47 :: join 47 rs) ++ z) = (47 :: join 47 rs) ++ z).
  { assert (J : join 47 rs = [] \/ exists c l, join 47 rs = c :: l /\ (c =? 47) = false).
    { destruct R as [|r rs (N & F) R]; [now left|right]. destruct F as [|c r Fc F]; [contradiction|]. exists c.
      destruct rs as [|r' rs]; eexists; (split; [reflexivity|]); apply no_s, plain_good, Fc. }
    destruct J as [->|(c & l & -> & Nc)].
    - destruct z as [|c z]; [reflexivity|]. destruct Z as [->| ->]; reflexivity.
    - cbn [app]. destruct c as [|c|c]; try reflexivity. do 6 (destruct c as [c|c|]; try reflexivity). discriminate. }
  rewrite S. now apply query_cut.
Qed.
Lemma join_last sep l x y : join sep (l ++ [x ++ y]) = join sep (l ++ [x]) ++ y.
Proof.
  induction l as [|t l IH]; [reflexivity|]. destruct l as [|u l].
  - cbn [app join]. rewrite <- app_assoc. reflexivity.
  - change (join sep (t :: (u :: l) ++ [x ++ y]) = join sep (t :: (u :: l) ++ [x]) ++ y).
    change (join sep (t :: (u :: l) ++ [x ++ y])) with (t ++ sep :: join sep ((u :: l) ++ [x ++ y])).
    change (join sep (t :: (u :: l) ++ [x])) with (t ++ sep :: join sep ((u :: l) ++ [x])).
    rewrite IH, <- app_assoc. reflexivity.
Qed.
Lemma link_file_of other n rs : mapM (comp_repr other) n = Ok rs -> Forall (fun r => r <> [] /\ Forall plain_char r) rs ->
  link_file (name_uri_path other) n = Ok ((126 :: join 126 rs) ++ dot_link).
Proof.
  intros E R. unfold link_file, name_uri_path, as_uri. rewrite E. cbn [bind].
  change (ccnx ++ 58 :: 47 :: join 47 rs) with (ccnx_colon ++ 47 :: join 47 rs).
  rewrite url_split_ccnx. cbn [snd].
  pose proof (link_path rs [] R I) as Q. rewrite app_nil_r in Q. rewrite Q.
  do 2 f_equal. change (map tilde (47 :: join 47 rs) = 126 :: join 126 rs). exact (f_equal (cons 126) (join_tilde rs R)).
Qed.

(* Names of such components have link files of their own. *)
Theorem C64_names : forall other n n', Forall link_comp n -> Forall link_comp n' ->
  (exists pth, name_path (name_uri_path other) n = Ok pth) /\
  (name_path (name_uri_path other) n = name_path (name_uri_path other) n' -> name_view n = name_view n').
Proof.
  intros other n n' F F'. destruct (reprs other n F) as (rs & E & R). destruct (reprs other n' F') as (rs' & E' & R').
  unfold name_path. rewrite (link_file_of other n rs E R), (link_file_of other n' rs' E' R'). cbn [bind]. split; [eauto|].
  intros H. apply Ok_inj in H. unfold nest in H. injection H as H. apply app_inv_tail in H. assert (rs = rs') as <-; [|eapply reprs_inj; eassumption].
  apply (join_inj 126); [| |exact H]; (eapply Forall_impl; [|eassumption]); intros r (N & Fr); split; auto; intros I;
    rewrite Forall_forall in Fr; apply Fr in I as [_ I]; apply I; cbn; tauto.
Qed.
Print Assumptions C64_names.

(* Without the conditions on characters different names share a link file:
   a segment is cut at "?" or "#", *)
Theorem C64_query_refuted : forall other n s c q b b0, Forall link_comp n -> Forall plain_char s -> c = 63 \/ c = 35 ->
  utf8_encode (s ++ c :: q) = Ok b -> utf8_encode s = Ok b0 ->
  name_path (name_uri_path other) (n ++ [seg b]) = name_path (name_uri_path other) (n ++ [seg b0]).
Proof.
  intros other n s c q b b0 F Fs Hc Eb Eb0. destruct (reprs other n F) as (rs & E & R).
  assert (M : forall t v, utf8_encode t = Ok v -> mapM (comp_repr other) (n ++ [seg v]) = Ok (rs ++ [t_name ++ t])).
  { intros t v Ev. clear - E Ev. revert rs E. induction n as [|x n IH]; intros rs E; cbn [app mapM] in *.
    - apply Ok_inj in E. subst rs. unfold comp_repr. cbn [seg c_type c_kind c_val]. change (1 =? T_CHUNKID) with false.
      change (1 =? T_NAMESEGMENT) with true. cbv iota. rewrite (C63_utf8_encode _ _ Ev). reflexivity.
    - inv_bind E. inv_bind E. apply Ok_inj in E. subst rs. rewrite ?E0, (IH _ E1). reflexivity. }
  assert (R' : Forall (fun r => r <> [] /\ Forall plain_char r) (rs ++ [t_name ++ s])).
  { apply Forall_app. split; [assumption|]. constructor; [|constructor]. split; [discriminate|].
    apply Forall_app. split; [now apply plain_ascii_all|assumption]. }
  set (j := rs ++ [t_name ++ s]) in *.
  assert (U : as_uri other (n ++ [seg b]) = Ok (ccnx_colon ++ ((47 :: join 47 j) ++ c :: q))).
  { unfold as_uri. rewrite (M _ _ Eb). cbn [bind]. pose proof (join_last 47 rs (t_name ++ s) (c :: q)) as J.
    rewrite <- app_assoc in J. unfold text in *. rewrite J. reflexivity. }
  assert (U0 : as_uri other (n ++ [seg b0]) = Ok (ccnx_colon ++ (47 :: join 47 j))).
  { unfold as_uri. rewrite (M _ _ Eb0). reflexivity. }
  unfold name_path, link_file, name_uri_path. rewrite U, U0. cbn [bind]. rewrite !url_split_ccnx. cbn [snd].
  rewrite (link_path j (c :: q) R' Hc). pose proof (link_path j [] R' I) as Q. rewrite app_nil_r in Q. rewrite Q. reflexivity.
Qed.
(* and "~" stands for "/": the segment "a~Name=b" and the segments "a", "b". *)
Theorem C64_tilde_refuted : forall other,
  name_path (name_uri_path other) [seg ([97; 126] ++ t_name ++ [98])] =
  name_path (name_uri_path other) [seg [97]; seg [98]].
Proof. intros other. vm_compute. reflexivity. Qed.
Print Assumptions C64_query_refuted.
Print Assumptions C64_tilde_refuted.

(* two named packets and a third whose name has the link file of the first *)
Definition ex_link : res (packet * packet * packet * files) :=
  p <- ex_pkt (Some [seg [97]]) [1; 2] ;; q <- ex_pkt (Some [seg [97]; seg [98]]) [3] ;;
  r <- ex_pkt (Some [seg [97; 63; 98]]) [4] ;;
  Ok (p, q, r, dw_files (dir_puts toy (name_uri_path (fun _ => [])) (ex_dwopt false) [p; q; r] (mkDW [] [] 0 0 0 0 0 0))).
(* the digest in the link file of n *)
Definition link_digest (d : files) (n : name) : option hashv :=
  match (pth <- name_path (name_uri_path (fun _ => [])) n ;; load (fl_of_Z 0) d pth) with
  | Ok k => match p_body k with
            | BCO c => match co_payload c with
                       | Some b => match link_deserialize b with Ok l => l_digest l | Err _ => None end
                       | None => None end
            | BInterest _ => None end
  | Err _ => None
  end.
Example C64_ex : match ex_link with
  | Err _ => False
  | Ok (p, q, r, d) => length d = 6%nat /\
      link_digest d [seg [97]; seg [98]] = (match packet_hash (pr_sha toy) q with Ok h => Some h | Err _ => None end) /\
      link_digest d [seg [97]] = (match packet_hash (pr_sha toy) r with Ok h => Some h | Err _ => None end) /\
      packet_hash (pr_sha toy) p <> packet_hash (pr_sha toy) r
  end.
Proof. vm_compute. repeat split. discriminate. Qed.
Example C64_put_ex : match ex_link with
  | Err _ => False
  | Ok (p, _, _, _) => fst (dir_put toy (name_uri_path (fun _ => [])) (ex_dwopt false) p (mkDW [] [] 0 0 0 0 0 0)) = Ok tt
  end.
Proof. vm_compute. reflexivity. Qed.
Example C64_names_ex : Forall link_comp [seg [97]; seg [195; 169]; mkComp T_CHUNKID KArray [1; 2]].
Proof.
  assert (G : forall c, scalar c = true -> existsb (Z.eqb c) [47; 63; 35; 9; 10; 13; 126] = false -> plain_char c).
  { intros c A B. split; [exact A|]. intros I. assert (existsb (Z.eqb c) [47; 63; 35; 9; 10; 13; 126] = true); [|congruence].
    apply existsb_exists. exists c. split; [exact I|apply Z.eqb_refl]. }
  constructor; [|constructor; [|constructor; [|constructor]]].
  - left. repeat split. exists [97]. split; [reflexivity|]. repeat constructor; now apply G.
  - left. repeat split. exists [233]. split; [reflexivity|]. repeat constructor; now apply G.
  - right. split; [left; reflexivity|]. exists 258. split; [change (2 ^ 64) with 18446744073709551616; lia|reflexivity].
Qed.

(** * C65: counters of the directory writer *)

(* the puts that all succeed *)
Fixpoint all_put {P} uri_path (o : dwopt P) (ps : list packet) (s : dwriter) : Prop :=
  match ps with
  | [] => True
  | p :: ps => fst (dir_put P uri_path o p s) = Ok tt /\ all_put uri_path o ps (snd (dir_put P uri_path o p s))
  end.
Definition manifest_packet (p : packet) : bool :=
  match p_body p with BCO c => match co_ptype c with Some t => t =? 3 | None => false end | BInterest _ => false end.
Definition dw_new : dwriter := mkDW [] [] 0 0 0 0 0 0.

Lemma all_put_app {P} uri_path (o : dwopt P) l1 : forall l2 s,
  all_put uri_path o (l1 ++ l2) s -> all_put uri_path o l1 s /\ all_put uri_path o l2 (dir_puts P uri_path o l1 s).
Proof.
  induction l1 as [|p l1 IH]; intros l2 s H; [split; [exact I|exact H]|]. cbn [app all_put] in H. destruct H as [A B].
  apply IH in B as [B C]. cbn [all_put]. auto.
Qed.

(* the directory writer counts as the memory writer does *)
Record dinv {P} (ps : list packet) (s : dwriter) (m : mem) : Prop := mkDinv
  { di_mem : foldM (mem_put P) mem_new ps = Ok m;
    di_hash : dw_hash s = me_hash m; di_bytes : dw_bytes s = me_bytes m; di_bytes_hash : dw_bytes_hash s = me_bytes_hash m;
    di_nman : dw_nman s = zlen (filter manifest_packet (rev (map snd (me_hash m))));
    di_ndata : dw_ndata s = zlen (filter (fun p => negb (manifest_packet p)) (rev (map snd (me_hash m))));
    di_bman : wire_bytes (filter manifest_packet (rev (map snd (me_hash m)))) (dw_bman s);
    di_bdata : wire_bytes (filter (fun p => negb (manifest_packet p)) (rev (map snd (me_hash m)))) (dw_bdata s) }.
Lemma dinv_puts P uri_path (o : dwopt P) ps : all_put uri_path o ps dw_new ->
  exists m, @dinv P ps (dir_puts P uri_path o ps dw_new) m.
Proof.
  induction ps as [|p ps IH] using rev_ind; intros H.
  - exists mem_new. split; try reflexivity; exists []; (split; [constructor|reflexivity]).
  - apply all_put_app in H as [H1 H2]. destruct (IH H1) as (m & D). clear IH. cbn [all_put] in H2. destruct H2 as [H2 _].
    unfold dir_puts. rewrite fold_left_app. cbn [fold_left]. change (fold_left _ ps dw_new) with (dir_puts P uri_path o ps dw_new).
    set (s := dir_puts P uri_path o ps dw_new) in *. destruct (dir_put P uri_path o p s) as [r s'] eqn:E. cbn [fst snd] in *. subst r.
    apply dir_put_inv in E as (w & h & c & Hw & Hh & Hb & _ & A & B).
    rewrite (di_hash _ _ _ D) in B.
    assert (M : manifest_packet p = is_manifest c) by (unfold manifest_packet, is_manifest; rewrite Hb; reflexivity).
    assert (F : foldM (mem_put P) mem_new (ps ++ [p]) = mem_put P m p).
    { rewrite foldM_app, (di_mem _ _ _ D). cbn [bind foldM]. destruct (mem_put P m p); reflexivity. }
    unfold mem_put, packet_len in F. rewrite Hw, Hh in F. cbn [bind] in F.
    destruct (dict_get hashv_key_eqb h (me_hash m)) as [q|]; eexists; split; try exact F;
      cbn [me_hash me_bytes me_bytes_hash dict_set map snd rev].
    + destruct B as (B & _). congruence.
    + rewrite A, (di_bytes _ _ _ D). reflexivity.
    + destruct B as (_ & B & _). rewrite B. apply D.
    + destruct B as (_ & _ & B & _). rewrite B. apply D.
    + destruct B as (_ & _ & _ & B & _). rewrite B. apply D.
    + destruct B as (_ & _ & _ & _ & B & _). rewrite B. apply D.
    + destruct B as (_ & _ & _ & _ & _ & B). rewrite B. apply D.
    + destruct B as (B & _). exact B.
    + rewrite A, (di_bytes _ _ _ D). reflexivity.
    + destruct B as (_ & B & _). rewrite B, (di_bytes_hash _ _ _ D). reflexivity.
    + rewrite filter_app. cbn [filter]. rewrite M. destruct B as (_ & _ & B). rewrite zlen_app.
      destruct (is_manifest c); destruct B as (B & _); rewrite B, (di_nman _ _ _ D); cbn [zlen length]; unfold zlen; cbn [length]; lia.
    + rewrite filter_app. cbn [filter]. rewrite M. destruct B as (_ & _ & B). rewrite zlen_app.
      destruct (is_manifest c); destruct B as (_ & B & _); rewrite B, (di_ndata _ _ _ D); cbn [negb zlen length]; unfold zlen; cbn [length]; lia.
    + rewrite filter_app. cbn [filter]. rewrite M. destruct B as (_ & _ & B).
      destruct (is_manifest c); destruct B as (_ & _ & B & _); rewrite B.
      * apply wire_bytes_snoc; [apply D|assumption].
      * rewrite app_nil_r. apply D.
    + rewrite filter_app. cbn [filter]. rewrite M. destruct B as (_ & _ & B).
      destruct (is_manifest c); destruct B as (_ & _ & _ & B); rewrite B; cbn [negb].
      * rewrite app_nil_r. apply D.
      * apply wire_bytes_snoc; [apply D|assumption].
Qed.

(* C65.  The counters: all packets, and of the packets with different hashes
   (the first of each hash) how many are manifests and how many are data, and
   their bytes.  Link files are not counted. *)
Theorem C65_counters : forall P uri_path (o : dwopt P) ps, all_put uri_path o ps dw_new ->
  let s := dir_puts P uri_path o ps dw_new in
  wire_bytes ps (dw_bytes s) /\
  exists ds, NoDup ds /\ (forall p, In p ds <-> exists h, first_with P h ps p) /\
    wire_bytes ds (dw_bytes_hash s) /\
    dw_nman s = zlen (filter manifest_packet ds) /\ wire_bytes (filter manifest_packet ds) (dw_bman s) /\
    dw_ndata s = zlen (filter (fun p => negb (manifest_packet p)) ds) /\
    wire_bytes (filter (fun p => negb (manifest_packet p)) ds) (dw_bdata s).
Proof.
  intros P uri_path o ps H s. destruct (dinv_puts P uri_path o ps H) as (m & D). fold s in D.
  pose proof (minv_puts P ps m (di_mem _ _ _ D)) as I.
  split; [rewrite (di_bytes _ _ _ D); apply I|]. exists (rev (map snd (me_hash m))).
  destruct (mem_distinct P ps m (di_mem _ _ _ D)) as (A & B & _).
  split; [exact A|]. split; [exact B|]. split; [rewrite (di_bytes_hash _ _ _ D); apply I|].
  repeat split; apply D.
Qed.
Print Assumptions C65_counters.
(* a data packet twice and a packet with payload type manifest *)
Definition ex_count : res (list packet) :=
  p <- ex_pkt (Some [seg [97]]) [1; 2] ;; m <- create_content_object (mkCO None (Some PT_MANIFEST) (Some [5]) None None) ;;
  Ok [p; m; p].
Example C65_ex : match ex_count with
  | Err _ => False
  | Ok ps => all_put (name_uri_path (fun _ => [])) (ex_dwopt false) ps dw_new /\
      let s := dir_puts toy (name_uri_path (fun _ => [])) (ex_dwopt false) ps dw_new in
      (dw_bytes s, dw_bytes_hash s, dw_nman s, dw_ndata s, dw_bman s, dw_bdata s) = (86, 54, 1, 1, 22, 32)
  end.
Proof. vm_compute.
  idtac.
  repeat split. Qed.
