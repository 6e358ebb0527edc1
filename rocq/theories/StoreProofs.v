(* Proofs about packet stores. *)
From Coq Require Import ZArith List Bool Lia ZifyBool.
From Verif Require Import Py Float Tlv Core TlvProofs FloatProofs CoreProofs Spec Flic Crypto CryptoProofs
  Optimizer Tree Store StoreSpec.
Import ListNotations.
Open Scope Z_scope.
Opaque tlv_make tlv_wire tlv_deserialize.

Lemma comps_eq_norm_eq a : forall b, comps_eq a b = true -> name_norm a = name_norm b -> a = b.
Proof.
  induction a as [|[t k v] a IH]; intros [|[t' k' v'] b]; cbn [comps_eq]; try discriminate; [reflexivity|].
  intros H E. apply andb_prop in H as [H1 H2]. cbn [name_norm map c_type c_val] in E. injection E as Et Ev E.
  unfold comp_eq in H1. cbn [c_val c_kind] in H1. subst t' v'. f_equal; [|apply IH; assumption].
  destruct k, k'; cbn [kind_eqb] in H1; try reflexivity; lia.
Qed.
Lemma comps_eq_refl a : comps_eq a a = true.
Proof.
  induction a as [|c a IH]; [reflexivity|]. cbn [comps_eq]. rewrite IH. unfold comp_eq.
  rewrite Z.eqb_refl, beqb_refl. destruct (c_kind c); reflexivity.
Qed.
Lemma name_eq_true a b : name_eq a b = true -> a = b.
Proof.
  unfold name_eq. intros H. apply andb_prop in H as [H1 H2].
  destruct (name_tlv a) as [ta|] eqn:Ea; [|discriminate]. destruct (name_tlv b) as [tb|] eqn:Eb; [|discriminate].
  apply comps_eq_norm_eq; [assumption|]. apply name_roundtrip in Ea as Pa. apply name_roundtrip in Eb as Pb.
  assert (ta = tb) as ->; [|congruence].
  unfold tlv_eq in H2. apply andb_prop in H2 as [_ H2]. apply beqb_spec in H2.
  apply name_tlv_ok in Ea as (_ & Ta & _). apply name_tlv_ok in Eb as (_ & Tb & _).
  destruct ta as [x1 y1], tb as [x2 y2]; cbn [t_type t_val] in *; congruence.
Qed.
Lemma name_eq_refl a t : name_tlv a = Ok t -> name_eq a a = true.
Proof.
  intros H. unfold name_eq. rewrite comps_eq_refl, H. unfold tlv_eq. rewrite Z.eqb_refl, beqb_refl. reflexivity.
Qed.

Lemma check_name_unnamed nm p : body_name p = None -> check_name nm p = Ok p.
Proof. intros H. unfold check_name. rewrite H. reflexivity. Qed.
Lemma check_name_named n m p : body_name p = Some m ->
  check_name (Some n) p = if name_eq n m then Ok p else Err ValueError.
Proof. intros H. unfold check_name. rewrite H. cbn [opt_name_eq bind]. destruct (name_eq n m); reflexivity. Qed.
Lemma check_name_none m p : body_name p = Some m -> check_name None p = Err AttributeError.
Proof. intros H. unfold check_name. rewrite H. reflexivity. Qed.

Lemma packet_name_ok p w n : packet_wire p = Ok w -> body_name p = Some n -> exists t, name_tlv n = Ok t.
Proof.
  intros H Hn. apply packet_wire_ok in H as (h & c & b & l2 & l3 & _ & Hb & Hc & _).
  unfold body_name in Hn. rewrite Hb in Hn. unfold co_tlv in Hc. rewrite Hn in Hc. cbn [wire_opt] in Hc.
  destruct (name_tlv n); [eauto|discriminate].
Qed.

(* ---------------- memory ---------------- *)

Section Mem.
Variable P : prims.
Notation hash := (packet_hash (pr_sha P)).
Notation first_with := (first_with P).
Notation last_with := (last_with P).
Notation absent := (absent P).

Lemma first_with_app_l h ps qs p : first_with h ps p -> first_with h (ps ++ qs) p.
Proof.
  intros (l1 & l2 & -> & H). exists l1, (l2 ++ qs). rewrite <- app_assoc. split; [reflexivity|exact H].
Qed.
Lemma first_with_new h ps p : hash p = Ok h -> absent h ps -> first_with h (ps ++ [p]) p.
Proof. intros H A. exists ps, []. auto. Qed.
Lemma first_with_in h ps p : first_with h ps p -> In p ps.
Proof. intros (l1 & l2 & -> & _). apply in_or_app. right. left. reflexivity. Qed.
Lemma first_with_unique h ps p q : first_with h ps p -> first_with h ps q -> p = q.
Proof.
  intros (l1 & l2 & -> & Hp & A) (k1 & k2 & E & Hq & B). revert k1 E B. induction l1 as [|a l1 IH]; intros k1 E B.
  - destruct k1 as [|b k1]; cbn [app] in E; [congruence|]. injection E as <- E. exfalso. apply (B p); [left; reflexivity|assumption].
  - destruct k1 as [|b k1]; cbn [app] in E.
    + injection E as -> E. exfalso. apply (A q); [left; reflexivity|assumption].
    + injection E as <- E. apply (IH (fun q H => A q (or_intror H)) k1 E (fun q H => B q (or_intror H))).
Qed.
Lemma first_with_snoc h ps p q : first_with h (ps ++ [q]) p ->
  first_with h ps p \/ (absent h ps /\ p = q /\ hash q = Ok h).
Proof.
  intros (l1 & l2 & E & Hp & A). destruct l2 as [|x l2] using rev_ind.
  - apply app_inj_tail in E as [-> ->]. right. auto.
  - left. rewrite app_comm_cons, app_assoc in E. apply app_inj_tail in E as [-> _]. exists l1, l2. auto.
Qed.

Lemma wire_bytes_snoc ps b p w : wire_bytes ps b -> packet_wire p = Ok w -> wire_bytes (ps ++ [p]) (b + zlen w).
Proof.
  intros (ws & F & ->) H. exists (ws ++ [w]). split; [apply Forall2_app; auto|].
  rewrite concat_app, zlen_app. cbn [concat]. rewrite app_nil_r. reflexivity.
Qed.

Lemma dict_none {V} h (d : list (hashv * V)) : dict_get hashv_key_eqb h d = None <-> ~ In h (map fst d).
Proof.
  induction d as [|[k v] d IH]; cbn [dict_get map fst In]; [tauto|].
  destruct (hashv_key_eqb k h) eqn:E.
  - apply hashv_key_eqb_spec in E. subst. split; [discriminate|]. intros H. exfalso. auto.
  - rewrite IH. split; [|tauto]. intros H [->|H']; [|auto].
    assert (hashv_key_eqb h h = true) by (apply hashv_key_eqb_spec; reflexivity). congruence.
Qed.
Lemma dict_set_same {V} h (v : V) d : dict_get hashv_key_eqb h (dict_set h v d) = Some v.
Proof.
  cbn [dict_set dict_get]. assert (hashv_key_eqb h h = true) as -> by (apply hashv_key_eqb_spec; reflexivity). reflexivity.
Qed.
Lemma dict_set_other {V} h k (v : V) d : k <> h ->
  dict_get hashv_key_eqb h (dict_set k v d) = dict_get hashv_key_eqb h d.
Proof.
  intros H. cbn [dict_set dict_get]. destruct (hashv_key_eqb k h) eqn:E; [|reflexivity].
  apply hashv_key_eqb_spec in E. contradiction.
Qed.

Record minv (ps : list packet) (s : mem) : Prop := mkMinv
  { mi_packets : me_packets s = ps;
    mi_total : wire_bytes ps (me_bytes s);
    mi_get : forall h, match dict_get hashv_key_eqb h (me_hash s) with
                       | Some p => first_with h ps p
                       | None => absent h ps
                       end;
    mi_keys : NoDup (map fst (me_hash s));
    mi_hashes : Forall (fun kv => first_with (fst kv) ps (snd kv)) (me_hash s);
    mi_unique : wire_bytes (rev (map snd (me_hash s))) (me_bytes_hash s) }.

Lemma minv_new : minv [] (mem_new).
Proof.
  split; cbn [mem_new me_packets me_bytes me_hash me_bytes_hash map rev dict_get]; try constructor.
  1,3: exists []; split; [constructor|reflexivity]. intros h q [].
Qed.
Lemma minv_put ps s p s' : minv ps s -> mem_put P s p = Ok s' -> minv (ps ++ [p]) s'.
Proof.
  intros I H. unfold mem_put, packet_len in H. inv_bind H. inv_bind E. injection E as <-. inv_bind H.
  rename a0 into w, a into h. pose proof (mi_get _ _ I h) as G.
  destruct (dict_get hashv_key_eqb h (me_hash s)) as [q|] eqn:D; apply Ok_inj in H; subst s';
    split; cbn [me_packets me_bytes me_hash me_bytes_hash].
  - rewrite (mi_packets _ _ I). reflexivity.
  - apply wire_bytes_snoc; [apply I|assumption].
  - intros h'. pose proof (mi_get _ _ I h') as G'. destruct (dict_get hashv_key_eqb h' (me_hash s)) as [q'|] eqn:D'.
    + apply first_with_app_l. assumption.
    + intros x Hx. apply in_app_or in Hx as [Hx|[<-|[]]]; [apply G'; assumption|]. rewrite E. congruence.
  - apply I.
  - eapply Forall_impl; [|apply I]. intros kv. apply first_with_app_l.
  - apply I.
  - rewrite (mi_packets _ _ I). reflexivity.
  - apply wire_bytes_snoc; [apply I|assumption].
  - intros h'. destruct (hashv_key_eqb h h') eqn:Eh.
    + apply hashv_key_eqb_spec in Eh. subst h'. rewrite dict_set_same. apply first_with_new; assumption.
    + rewrite dict_set_other; [|intros ->; assert (hashv_key_eqb h' h' = true) by (apply hashv_key_eqb_spec; reflexivity); congruence].
      pose proof (mi_get _ _ I h') as G'. destruct (dict_get hashv_key_eqb h' (me_hash s)) as [q'|] eqn:D'.
      * apply first_with_app_l. assumption.
      * intros x Hx. apply in_app_or in Hx as [Hx|[<-|[]]]; [apply G'; assumption|]. rewrite E. intros [= ->].
        assert (hashv_key_eqb h' h' = true) by (apply hashv_key_eqb_spec; reflexivity). congruence.
  - cbn [dict_set map fst]. constructor; [apply dict_none; assumption|apply I].
  - constructor; [apply first_with_new; assumption|]. eapply Forall_impl; [|apply I]. intros kv. apply first_with_app_l.
  - cbn [dict_set map snd rev]. apply wire_bytes_snoc; [apply I|assumption].
Qed.
Lemma minv_puts ps : forall s, foldM (mem_put P) mem_new ps = Ok s -> minv ps s.
Proof.
  induction ps as [|p ps IH] using rev_ind; intros s H.
  - cbn in H. injection H as <-. apply minv_new.
  - rewrite foldM_app in H. inv_bind H. cbn [foldM] in H. inv_bind H. injection H as <-. eapply minv_put; eauto.
Qed.

Lemma mem_reader_get ps : forall d, mem_reader P ps = Ok d -> forall h,
  match dict_get hashv_key_eqb h d with Some p => last_with h ps p | None => absent h ps end.
Proof.
  induction ps as [|p ps IH] using rev_ind; intros d H h.
  - cbn in H. injection H as <-. cbn. intros q [].
  - unfold mem_reader in H. rewrite foldM_app in H. inv_bind H. cbn [foldM] in H. inv_bind H. injection H as <-.
    unfold mem_index in E0. inv_bind E0. injection E0 as <-. specialize (IH _ E h).
    destruct (hashv_key_eqb a1 h) eqn:Eh.
    + apply hashv_key_eqb_spec in Eh. subst a1. rewrite dict_set_same. exists ps, []. auto.
    + assert (a1 <> h) as N by (intros ->; assert (hashv_key_eqb h h = true) by (apply hashv_key_eqb_spec; reflexivity); congruence).
      rewrite dict_set_other by assumption. destruct (dict_get hashv_key_eqb h a) as [q|].
      * destruct IH as (l1 & l2 & -> & Hq & A). exists l1, (l2 ++ [p]). rewrite <- app_assoc. split; [reflexivity|].
        split; [assumption|]. intros x Hx. apply in_app_or in Hx as [Hx|[<-|[]]]; [auto|]. rewrite E1. congruence.
      * intros x Hx. apply in_app_or in Hx as [Hx|[<-|[]]]; [apply IH; assumption|]. rewrite E1. congruence.
Qed.
End Mem.

(* ---------------- directory ---------------- *)

Lemma hex_digit_inj a b : 0 <= a < 16 -> 0 <= b < 16 -> hex_digit a = hex_digit b -> a = b.
Proof. unfold hex_digit. intros. destruct (a <? 10) eqn:A, (b <? 10) eqn:B; lia. Qed.
Lemma hex_digit_range a : 0 <= a < 16 -> 48 <= hex_digit a <= 102.
Proof. unfold hex_digit. intros. destruct (a <? 10) eqn:A; lia. Qed.
Lemma byte_digits x : 0 <= x < 256 -> 0 <= x / 16 < 16 /\ 0 <= x mod 16 < 16 /\ x = 16 * (x / 16) + x mod 16.
Proof. intros. Z.div_mod_to_equations. lia. Qed.
Lemma hex_inj a : forall b, bytes_ok a -> bytes_ok b -> hex a = hex b -> a = b.
Proof.
  induction a as [|x a IH]; intros [|y b] Ha Hb H; cbn [hex flat_map app] in H; try discriminate; [reflexivity|].
  injection H as H1 H2 H. inversion Ha as [|? ? X Ha']; inversion Hb as [|? ? Y Hb']; subst.
  destruct (byte_digits x X) as (A1 & A2 & A3). destruct (byte_digits y Y) as (B1 & B2 & B3).
  apply hex_digit_inj in H1; [|assumption..]. apply hex_digit_inj in H2; [|assumption..].
  f_equal; [lia|]. apply IH; assumption.
Qed.
Lemma hex_not_dot a : bytes_ok a -> ~ In 46 (hex a).
Proof.
  induction 1 as [|x a X H IH]; cbn [hex flat_map app In]; [tauto|].
  destruct (byte_digits x X) as (A1 & A2 & _). pose proof (hex_digit_range _ A1). pose proof (hex_digit_range _ A2).
  intros [E|[E|E]]; [lia..|]. apply IH. exact E.
Qed.

Lemma path_eqb_spec a : forall b, path_eqb a b = true <-> a = b.
Proof.
  induction a as [|x a IH]; intros [|y b]; cbn [path_eqb]; try (split; [discriminate|discriminate]); [tauto|].
  rewrite andb_true_iff, beqb_spec, IH. split; [intros [-> ->]; reflexivity|intros [= -> ->]; auto].
Qed.
Lemma file_set_same p w (d : files) : dict_get path_eqb p (dict_set p w d) = Some w.
Proof.
  cbn [dict_set dict_get]. assert (path_eqb p p = true) as -> by (apply path_eqb_spec; reflexivity). reflexivity.
Qed.
Lemma file_set_other p q w (d : files) : q <> p ->
  dict_get path_eqb p (dict_set q w d) = dict_get path_eqb p d.
Proof.
  intros H. cbn [dict_set dict_get]. destruct (path_eqb q p) eqn:E; [|reflexivity].
  apply path_eqb_spec in E. contradiction.
Qed.

Section Dir.
Variable P : prims.
Variable uri_path : name -> res bytes.
Notation hash := (packet_hash (pr_sha P)).
Notation dir_put := (dir_put P uri_path).
Notation dir_puts := (dir_puts P uri_path).

Lemma packet_hash_bytes p h : hash p = Ok h -> h_alg h = T_SHA_256 /\ bytes_ok (h_val h).
Proof.
  unfold packet_hash. intros H. inv_bind H. inv_bind H. injection H as <-. cbn [h_alg h_val]. split; [reflexivity|].
  unfold hashv_tlv in E0. apply tlv_make_tlv_ok in E0 as ((_ & _ & A) & _ & B). cbn [h_val] in B. rewrite <- B. exact A.
Qed.
Lemma hash_path_inj h h' : bytes_ok (h_val h) -> bytes_ok (h_val h') ->
  hash_path false h = hash_path false h' -> h_val h = h_val h'.
Proof. unfold hash_path, nest. intros A B [= E]. apply hex_inj; assumption. Qed.
Lemma hash_path_link h f : bytes_ok (h_val h) -> [f ++ dot_link] <> hash_path false h.
Proof.
  unfold hash_path, nest. intros A [= E]. apply (hex_not_dot _ A). rewrite <- E. apply in_or_app. right. left. reflexivity.
Qed.
Lemma hash_path_nested h h' : hash_path true h <> hash_path false h'.
Proof. unfold hash_path, nest. discriminate. Qed.

Lemma write_link_files o p s : dw_files (snd (write_link P uri_path o p s)) = dw_files s \/
  exists f w, dw_files (snd (write_link P uri_path o p s)) = dict_set [f ++ dot_link] w (dw_files s).
Proof.
  unfold write_link. destruct (do_link o); [|left; reflexivity]. destruct (p_body p); [|left; reflexivity].
  destruct (body_name p) as [n|]; [|left; reflexivity].
  unfold sbind, lift. destruct (create_link_packet P o p) as [k|]; [|left; reflexivity].
  unfold name_path, link_file. destruct (uri_path n) as [u|]; [|left; reflexivity]. cbn [bind nest].
  unfold save, sbind, lift, smod. destruct (packet_wire k) as [w|]; [|left; reflexivity].
  right. eexists _, w. reflexivity.
Qed.
Lemma count_put_files l h p s : dw_files (snd (count_put l h p s)) = dw_files s.
Proof.
  unfold count_put, sbind, sget, sret, smod, lift. destruct (dict_get _ h (dw_hash s)); [reflexivity|].
  destruct (p_body p) as [c|]; [|reflexivity]. destruct (is_manifest c); reflexivity.
Qed.

(* the file of a hash after a put *)
Lemma dir_put_same o p w h s : do_nested o = false -> packet_wire p = Ok w -> hash p = Ok h ->
  dict_get path_eqb (hash_path false h) (dw_files (snd (dir_put o p s))) = Some w.
Proof.
  intros Hn Hw Hh. destruct (packet_hash_bytes _ _ Hh) as [_ B].
  unfold Store.dir_put, packet_len. unfold sbind, lift, smod. rewrite Hw, Hh. cbn [bind].
  unfold save, sbind, lift, smod. rewrite Hw, Hn.
  set (s1 := set_files _ _). destruct (write_link_files o p s1) as [E|(f & w' & E)];
    destruct (write_link P uri_path o p s1) as [[u|e] s2]; cbn [snd] in *; rewrite ?count_put_files, E.
  1,2: apply file_set_same.
  all: rewrite file_set_other by (apply hash_path_link; assumption); apply file_set_same.
Qed.
Lemma dir_put_other o p h s : bytes_ok (h_val h) ->
  (forall h', hash p = Ok h' -> do_nested o = false -> h_val h' <> h_val h) ->
  dict_get path_eqb (hash_path false h) (dw_files (snd (dir_put o p s))) =
  dict_get path_eqb (hash_path false h) (dw_files s).
Proof.
  intros B H. unfold Store.dir_put, packet_len, sbind, lift, smod.
  destruct (packet_wire p) as [w|] eqn:Hw; [|reflexivity]. cbn [bind].
  destruct (hash p) as [h'|] eqn:Hh; [|reflexivity].
  unfold save, sbind, lift, smod. rewrite Hw.
  set (s1 := set_files _ _).
  assert (dict_get path_eqb (hash_path false h) (dw_files s1) = dict_get path_eqb (hash_path false h) (dw_files s)) as E1.
  { unfold s1. cbn [set_files dw_files add_bytes]. apply file_set_other.
    destruct (packet_hash_bytes _ _ Hh) as [_ B']. destruct (do_nested o) eqn:Ed; [apply hash_path_nested|].
    intros E. apply hash_path_inj in E; [|assumption..]. eapply H; eauto. }
  destruct (write_link_files o p s1) as [E|(f & w' & E)];
    destruct (write_link P uri_path o p s1) as [[u|e] s2]; cbn [snd] in *; rewrite ?count_put_files, E; try assumption.
  all: rewrite file_set_other by (apply hash_path_link; assumption); assumption.
Qed.

Lemma dir_puts_other o h ps : forall s, bytes_ok (h_val h) ->
  (forall q h', In q ps -> hash q = Ok h' -> do_nested o = false -> h_val h' <> h_val h) ->
  dict_get path_eqb (hash_path false h) (dw_files (dir_puts o ps s)) =
  dict_get path_eqb (hash_path false h) (dw_files s).
Proof.
  induction ps as [|p ps IH]; intros s B H; [reflexivity|]. cbn [StoreSpec.dir_puts fold_left].
  change (fold_left _ ps _) with (dir_puts o ps (snd (dir_put o p s))). rewrite IH; [|assumption|].
  - apply dir_put_other; [assumption|]. intros h'. apply H. left. reflexivity.
  - intros q h' Hq. apply H. right. assumption.
Qed.
Lemma dir_puts_file o l1 p l2 w h s : do_nested o = false -> packet_wire p = Ok w -> hash p = Ok h ->
  (forall q, In q l2 -> hash q = Ok h -> packet_wire q = Ok w) ->
  dict_get path_eqb (hash_path false h) (dw_files (dir_puts o (l1 ++ p :: l2) s)) = Some w.
Proof.
  intros Hn Hw Hh H. unfold StoreSpec.dir_puts. rewrite fold_left_app. cbn [fold_left]. set (s1 := fold_left _ l1 s).
  change (fold_left _ l2 _) with (dir_puts o l2 (snd (dir_put o p s1))).
  assert (forall l s, (forall q, In q l -> In q l2) ->
    dict_get path_eqb (hash_path false h) (dw_files s) = Some w ->
    dict_get path_eqb (hash_path false h) (dw_files (dir_puts o l s)) = Some w) as K.
  { induction l as [|q l IH]; intros s0 Hl H0; [exact H0|]. cbn [StoreSpec.dir_puts fold_left].
    change (fold_left _ l _) with (dir_puts o l (snd (dir_put o q s0))). apply IH; [intros; apply Hl; right; assumption|].
    assert (In q l2) as Hq by (apply Hl; left; reflexivity). destruct (packet_hash_bytes _ _ Hh) as [A B].
    destruct (hash q) as [h'|e] eqn:Eq.
    - destruct (hashv_key_eqb h' h) eqn:Eh.
      + apply hashv_key_eqb_spec in Eh. subst h'. apply dir_put_same; auto.
      + rewrite dir_put_other; [assumption|assumption|]. intros h'' E _ E'. rewrite Eq in E. injection E as <-.
        destruct (packet_hash_bytes _ _ Eq) as [A' _]. assert (h' = h) as -> by (destruct h', h; cbn in *; congruence).
        assert (hashv_key_eqb h h = true) by (apply hashv_key_eqb_spec; reflexivity). congruence.
    - rewrite dir_put_other; [assumption|assumption|]. intros h'' E. rewrite Eq in E. discriminate. }
  apply K; [auto|]. apply dir_put_same; assumption.
Qed.
End Dir.
