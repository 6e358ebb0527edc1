(* C52: for which byte streams a tree can be built. *)
From Coq Require Import ZArith List Bool Lia ZifyBool.
From Verif Require Import Py Tlv Float Core TlvProofs CoreProofs Flic FlicProofs Spec Crypto CryptoProofs PropsCrypto
  Optimizer OptimizerProofs Tree TreeSpec TreeProofs TreeFacts PropsTree ChunkProofs SizeProofs PropsChunk
  PropsOptimizer BuildProofs SizeNode PropsSize BuildTotal.
Import ListNotations.
Open Scope Z_scope.
Ltac Zify.zify_post_hook ::= Z.div_mod_to_equations.
Opaque tlv_make tlv_wire tlv_deserialize.

Lemma emits_good P (o : opts P) i l : forall id pkts ms, sha_ok P -> 0 <= id -> op_max o < 2 ^ 16 -> emits P o i id l pkts ms ->
  Forall (fun c => good_hash (cm_hash c) /\ 0 <= cm_bytes c < 65536 /\ 0 <= cm_num c < 2 ^ 24) ms.
Proof.
  induction l as [|b l IH]; intros id [|p pkts] [|m ms] HS Hid HM H; cbn [emits] in H; try tauto; auto.
  destruct H as ((nm & w & h & _ & Eb & _ & _ & Ew & Elen & Lw & Hi & L64 & Eh & ->) & H).
  apply IH in H; [|exact HS|lia|exact HM]. constructor; [|exact H].
  cbn [cm_hash cm_bytes cm_num]. split; [|split].
  - unfold packet_hash in Eh. apply bind_ok in Eh as (w' & _ & Eh).
    apply bind_ok in Eh as (t & _ & Eh). apply Ok_inj in Eh. rewrite <- Eh. destruct (HS w') as (B & L).
    split; [reflexivity|]. split; [unfold sha_len; cbn [h_val]; unfold zlen; now rewrite L|]. cbn [h_val]. now apply all_bytes_ok.
  - pose proof (zlen_nonneg b). rewrite Elen in L64. unfold data_len in L64.
    assert (0 <= name_len nm) by (unfold name_len; destruct nm; [destruct (name_tlv _) as [t|]; [pose proof (tlv_len_ge t)|]|]; lia).
    assert (0 <= exp_len (op_dexp o)) by (unfold exp_len; destruct (op_dexp o); lia).
    assert (0 <= fcid_len (final_id i id match l with [] => true | _ :: _ => false end)).
    { unfold fcid_len. destruct (final_id _ _ _) as [z|]; [pose proof (int_len_pos z)|]; lia. }
    lia.
  - unfold MAX_CHUNK_ID in Hi. change (2 ^ 24) with 16777216. lia.
Qed.

(* The longest manifest name and the expiry time leave room for op_max bytes of
   payload in a packet. *)
Definition manifests_fit {P} (o : opts P) (x : nctx) : Prop :=
  exists nm c, impl_name (nx_man x) (Some (2 ^ 64 - 1)) = Ok nm /\
    co_tlv (mkCO nm (Some PT_MANIFEST) (Some []) (op_mexp o) None) = Ok c /\ 8 + tlv_len c + op_max o < 2 ^ 16.
Lemma manifests_fit_all P (o : opts P) x : manifests_fit o x ->
  forall id, 0 <= id -> exists nm c, impl_name (nx_man x) (Some id) = Ok nm /\
    co_tlv (mkCO nm (Some PT_MANIFEST) (Some []) (op_mexp o) None) = Ok c /\ 8 + tlv_len c + op_max o < 65536.
Proof.
  intros (nm & c & En & Ec & L) id Hid. pose proof (co_len _ _ _ _ _ Ec) as Lc.
  apply co_tlv_ok in Ec as ((_ & Hok & _) & _ & l1 & l2 & l3 & l4 & l5 & O1 & O2 & O3 & O4 & O5 & _ & _).
  cbn [co_name co_ptype co_payload co_expiry co_fcid] in *. cbn [opt_tlvs] in O5. subst l5.
  assert (int_len id <= int_len (2 ^ 64 - 1)) as Hil.
  { change (int_len (2 ^ 64 - 1)) with 8. unfold int_len. repeat match goal with |- context [if ?c then _ else _] => destruct c end; lia. }
  destruct (impl_name_len _ id _ _ Hid Hil En (ex_intro _ _ O1)) as (nm' & En' & (l1' & O1') & Ln).
  unfold data_len in Lc. cbn [fcid_len] in Lc. change (zlen []) with 0 in Lc.
  pose proof (name_len_tlvs _ _ O1') as W1. pose proof (exp_len_tlvs _ _ O2) as W2.
  assert (wlen l3 = 5) as W3 by (destruct O3 as (t3 & E3 & ->); now rewrite wlen_one, (ptype_len _ _ E3)).
  assert (wlen l4 = 4) as W4.
  { destruct O4 as (t4 & E4 & ->). rewrite wlen_one. apply tlv_make_tlv_ok in E4 as (_ & _ & E4).
    unfold tlv_len, tlv_length. rewrite E4. reflexivity. }
  assert (name_len nm' <= name_len nm) as Ln' by (rewrite Ln; destruct (uses_name_id _); lia).
  assert (wlen (l1' ++ l2 ++ l3 ++ l4 ++ []) = name_len nm' + exp_len (op_mexp o) + 9) as Wl by (rewrite !wlen_app, wlen_nil; lia).
  pose proof (zlen_nonneg (@nil Z)).
  exists nm', (mkTlv T_OBJECT (wires (l1' ++ l2 ++ l3 ++ l4 ++ []))). split; [exact En'|]. split.
  - apply co_tlv_intro; cbn [co_name co_ptype co_payload co_expiry co_fcid opt_tlvs]; auto. unfold tlv_len in *. lia.
  - unfold tlv_len, tlv_length. cbn [t_val]. unfold wlen in Wl. lia.
Qed.
(* A root manifest can be made for every packet that has a hash. *)
Definition root_fits {P} (rnd : nat -> bytes) (now : fl) (o : opts P) (x : nctx) (total : Z) : Prop :=
  forall top h k, packet_hash (pr_sha P) top = Ok h ->
    exists root k', root_packet P rnd now o x total top k = (Ok root, k').

(* The settings of a build: a name context, room for a byte of data in a data
   object, for two pointers in a manifest and for a root manifest; any degree
   from two up.  The stream has at most 2^24 chunks. *)
Record settings {P} (rnd : nat -> bytes) (now : fl) (o : opts P) (nc : Z) (x : nctx) (data : bytes) (k : nat) : Prop :=
  { se_ctx : nctx_create P o nc = Ok x;
    se_max : op_max o < 2 ^ 16;
    se_data : empty_fits o (nx_data x);
    se_len : exists ps, payload_size P o (nx_data x) = Ok ps /\ zlen data <= ps * 2 ^ 24;
    se_degree : match op_degree o with None => True | Some d => 2 <= d end;
    se_ptrs : exists num k', max_pointers P rnd now o x (zlen data) k = (Ok num, k');
    se_man : manifests_fit o x;
    se_root : root_fits rnd now o x (zlen data) }.

Section Run.
Context (P : prims).
Variable clog : Z -> Z -> Z -> Z.
Variable rnd : nat -> bytes.
Variable now : fl.
Variable o : opts P.
Variable nc : Z.
Variable x : nctx.
Variable data : bytes.
Variable s : mst.
Hypothesis HL : log_ok clog.
Hypothesis HS : sha_ok P.
Hypothesis HP : seal_adds_tag P.
Hypothesis HT : seal_total P.
Hypothesis HR : same_nonce_len rnd.
Hypothesis HB : forall k, all_bytes (rnd k).
Hypothesis HD : all_bytes data.
Hypothesis HE : settings rnd now o nc x data (ms_nonce s).

Lemma runs : if zlen data =? 0 then exists s', manifest_tree P clog rnd now o nc data s = (Err ValueError, s')
  else exists root s', manifest_tree P clog rnd now o nc data s = (Ok root, s').
Proof.
  destruct HE as [Hc Hmax Hf (ps & Eps & Hlen) Hdeg (num & k' & Hnum) Hman Hroot].
  pose proof (nctx_create_wf _ _ _ _ Hc) as Hx.
  assert (op_max o <= 2 ^ 24) as HM by lia.
  pattern (manifest_tree P clog rnd now o nc data s). match goal with |- ?F _ => set (Q := F) end.
  unfold manifest_tree. unfold sbind at 1. unfold lift at 1. rewrite Hc.
  pose proof (C25_never_fails P o (nx_data x) 0 data (ms_out s) HS HD Hf Hmax ltac:(lia)) as (ps' & Eps' & Hps & C).
  rewrite Eps in Eps'. apply Ok_inj in Eps'. subst ps'.
  replace (zlen data <=? ps * (2 ^ 24 - 0)) with true in C by lia. destruct C as (ms0 & total & next & out' & C).
  pose proof (chunk_data_run P o (nx_data x) 0 data (ms_out s)) as R. unfold run in R. rewrite C in R.
  destruct R as (ps' & l & pkts & meta & Eps' & _ & Hcut & -> & Hem & Hll & E). injection E as -> -> ->.
  rewrite Eps in Eps'. apply Ok_inj in Eps'. subst ps'.
  unfold sbind at 1. unfold on_out at 1. rewrite C.
  pose proof (emits_count _ _ _ _ _ _ _ Hem ltac:(unfold MAX_CHUNK_ID; lia)) as (Hcnt & Hlm).
  pose proof (max_pointers_bound _ _ _ _ _ _ _ _ _ HM Hnum) as Hb.
  set (p := match op_degree o with None => num | Some d => Z.min num d end).
  assert (2 <= p <= 2 ^ 20 /\ p <= num) as (Hp & Hpn) by (unfold p; destruct (op_degree o); lia).
  unfold sbind at 1. unfold on_nonce at 1. cbn [ms_nonce ms_out]. unfold tree_params. unfold sbind at 1. rewrite Hnum.
  unfold sbind at 1. unfold lift at 1. replace (2 <=? num) with true by lia. cbn [guard]. unfold lift. fold p.
  assert (zlen meta = zlen l) as Hml by (unfold zlen; lia).
  destruct (zlen data =? 0) eqn:E0.
  { assert (zlen meta = 0) as ->.
    { rewrite Hml. destruct Hcut as (Ec & Fl & _). destruct l as [|b l]; [reflexivity|].
      apply Forall_inv in Fl as (Nb & _). assert (zlen data = 0) as Ed by lia. rewrite <- Ec in Ed. cbn [concat] in Ed. rewrite zlen_app in Ed.
      pose proof (zlen_nonneg b). pose proof (zlen_nonneg (concat l)). assert (0 < zlen b) by (destruct b as [|z b]; [contradiction|]; unfold zlen; cbn [length]; lia). unfold bytes in *. lia. }
    rewrite optimizer_empty by lia. unfold Q. eauto. }
  assert (1 <= zlen meta) as Hn1.
  { rewrite Hml. destruct l as [|b l]; [|rewrite zlen_cons; pose proof (zlen_nonneg l); lia].
    destruct Hcut as (Ec & _). cbn in Ec. subst data. cbn in E0. discriminate. }
  destruct (C28_optimizer_usable P clog o x meta p HL) as (r & Er & U & Sr); try assumption.
  { split; [assumption|]. unfold MAX_CHUNK_ID in Hcnt. change (2 ^ 32) with 4294967296. lia. }
  rewrite Er. set (v := env_of P o x meta r) in *.
  unfold sbind at 1. unfold build_top at 1. cbn [ms_nonce ms_out].
  destruct (init_ok P rnd v (ms_out s ++ pkts) k' U) as (b0 & I & _). rewrite I.
  destruct (tb_build P rnd now v b0) as [[np|e] b] eqn:B.
  2:{ exfalso. destruct (build_err P rnd now v _ _ _ _ _ U I B) as (F & _). revert F.
      pose proof (emits_sizes _ _ _ _ _ _ _ Hem Hll) as (Eb & _).
      destruct U as (Ud & Um & _).
      apply (no_enc_fail P rnd now v Hx HS HP HT HR HB) with (total := zlen data) (num := num) (kk := ms_nonce s) (k' := k').
      - eapply emits_good; [exact HS| |exact Hmax|exact Hem]. lia.
      - cbn [te_meta v env_of]. rewrite Eb, zsum_concat. destruct Hcut as (-> & _). reflexivity.
      - exact Hnum.
      - unfold te_p. cbn [v env_of te_d te_m]. lia.
      - unfold te_p. lia.
      - exact Hmax.
      - exact (manifests_fit_all _ _ _ Hman). }
  destruct (build_ok P rnd now v _ _ _ _ _ U I B) as (lv & t & R).
  pose proof (rs_shows _ _ _ _ _ _ _ _ _ _ R) as (Enp & Eo & _). cbn [bind]. rewrite Enp. cbn [snd].
  pose proof (wf_made _ _ _ _ _ _ (rs_wf _ _ _ _ _ _ _ _ _ _ R)) as (_ & _ & Hh).
  destruct (Hroot (mi_pkt (top t)) _ (b_nonce b) Hh) as (root & k2 & ER).
  unfold build_root, sbind, on_nonce, on_out, smod, sret. cbn [ms_nonce ms_out]. rewrite ER. cbn [ms_nonce ms_out].
  unfold Q. eauto.
Qed.
End Run.

(* With such settings a tree is built for every stream but the empty one. *)
Theorem C52_builds : forall P clog rnd now (o : opts P) nc x data s,
  log_ok clog -> sha_ok P -> seal_adds_tag P -> seal_total P -> same_nonce_len rnd ->
  (forall k, all_bytes (rnd k)) -> all_bytes data -> settings rnd now o nc x data (ms_nonce s) ->
  data <> [] -> exists root s', manifest_tree P clog rnd now o nc data s = (Ok root, s').
Proof.
  intros P clog rnd now o nc x data s HL HS HP HT HR HB HD HE Hd.
  pose proof (runs P clog rnd now o nc x data s HL HS HP HT HR HB HD HE) as H.
  destruct data as [|z d]; [contradiction|]. rewrite zlen_cons in H. pose proof (zlen_nonneg d).
  replace (1 + zlen d =? 0) with false in H by lia. exact H.
Qed.
Theorem C52_empty : forall P clog rnd now (o : opts P) nc x s,
  log_ok clog -> sha_ok P -> seal_adds_tag P -> seal_total P -> same_nonce_len rnd ->
  (forall k, all_bytes (rnd k)) -> settings rnd now o nc x [] (ms_nonce s) ->
  exists s', manifest_tree P clog rnd now o nc [] s = (Err ValueError, s').
Proof.
  intros P clog rnd now o nc x s HL HS HP HT HR HB HE.
  apply (runs P clog rnd now o nc x [] s HL HS HP HT HR HB ltac:(intros ? []) HE).
Qed.
(* whatever the settings *)
Theorem C52_refuted : forall P clog rnd now (o : opts P) nc s root s', log_ok clog -> op_max o <= 2 ^ 24 ->
  manifest_tree P clog rnd now o nc [] s <> (Ok root, s').
Proof.
  intros P clog rnd now o nc s root s' HL HM H.
  apply (manifest_tree_ok P clog rnd now o nc [] HL HM) in H
    as (k' & x & ps & l & pkts & meta & num & r & lv & t & np & b & k2 & SU & _).
  destruct SU as [_ _ _ (Ec & Fl) Hem _ Hlen _ _ _ (_ & _ & _ & (Hn & _) & _)]. cbn [env_of te_meta] in Hn.
  assert (l = []) as ->.
  { destruct l as [|y l]; [reflexivity|]. apply Forall_inv in Fl as Nb. destruct y; [contradiction|discriminate]. }
  destruct pkts; [|discriminate]. destruct meta; [|cbn in Hem; contradiction]. cbn in Hn. lia.
Qed.

(* ---------------- examples ---------------- *)

Lemma toy_seal_total : seal_total toy.
Proof.
  intros a k iv pt aad c iv' pt' aad' _ _ _ Hpt _. eexists. split; [reflexivity|]. intros z Hz. apply in_app_or in Hz as [Hz|Hz]; [auto|].
  apply repeat_spec in Hz. subst z. unfold toy_sum. lia.
Qed.
(* settings for 600 bytes in packets of at most 300, for each kind of names *)
Example C52_ex : forall ty, settings (fun _ => []) (mkFl 0 0) (ex_opts ty 300) 1 (ex_ctx ty) (repeat 7 600) 0%nat /\
  settings (fun _ => []) (mkFl 0 0) (ex_opts ty 300) 1 (ex_ctx ty) [] 0%nat.
Proof.
  assert (R : forall ty n, In n [600; 0] -> root_fits (fun _ => []) (mkFl 0 0) (ex_opts ty 300) (ex_ctx ty) n).
  { intros ty n Hn top h k Hh.
    assert (F : forallb (fun n => forallb (fun z => match fac_packet toy (fun _ => []) (mkFl 0 0) (ex_opts ty 300) (SrcPtrs [mkHash T_SHA_256 (repeat z 32)])
       (Some (nctx_defs (ex_ctx ty))) (Some n) (Some n) None
       (Some (im_nc (nx_man (ex_ctx ty))))
       (if uses_name_id (nx_man (ex_ctx ty)) then Some 0 else None)
       (op_name (ex_opts ty 300)) (op_rexp (ex_opts ty 300)) false true k with (Ok _, _) => true | _ => false end) (zrange 0 256)) [600; 0] = true).
    { destruct ty; vm_compute; reflexivity. }
    rewrite forallb_forall in F. specialize (F n Hn). rewrite forallb_forall in F.
    unfold root_packet, sbind, lift. rewrite Hh.
    unfold packet_hash in Hh. apply bind_ok in Hh as (w & _ & Hh). apply bind_ok in Hh as (t & _ & Hh). apply Ok_inj in Hh. subst h.
    cbn [toy pr_sha]. specialize (F (toy_sum w) ltac:(apply zrange_in; unfold toy_sum; lia)).
    change (negb (is_none (op_signer (ex_opts ty 300)))) with false.
    match goal with |- context [fac_packet ?a ?b ?c ?d ?e ?f ?g ?h ?i ?j ?k ?l ?m ?n ?o ?p] => destruct (fac_packet a b c d e f g h i j k l m n o p) as [[q|] k'] end.
    - eauto.
    - discriminate. }
  assert (S : forall ty data, In (zlen data) [600; 0] -> settings (fun _ => []) (mkFl 0 0) (ex_opts ty 300) 1 (ex_ctx ty) data 0%nat).
  { intros ty data Hn. split; [destruct ty; vm_compute; reflexivity|reflexivity| | |exact I| | |now apply R].
    - unfold empty_fits.
      assert (X : match impl_name (nx_data (ex_ctx ty)) (Some 0xFFFFFF) with
                  | Ok nm => match (c <- create_data nm (Some []) (op_dexp (ex_opts ty 300)) (if uses_name_id (nx_data (ex_ctx ty)) then Some 0xFFFFFF else None) ;;
                                    create_content_object c) with
                             | Ok p => match packet_wire p with Ok w => zlen w <? 300 | _ => false end
                             | _ => false end
                  | _ => false end = true) by (destruct ty; vm_compute; reflexivity).
      destruct (impl_name (nx_data (ex_ctx ty)) (Some 0xFFFFFF)) as [nm|]; [|discriminate].
      destruct (c <- create_data nm (Some []) (op_dexp (ex_opts ty 300)) (if uses_name_id (nx_data (ex_ctx ty)) then Some 0xFFFFFF else None) ;;
                create_content_object c) as [p|] eqn:Ep; [|discriminate].
      destruct (packet_wire p) as [w|] eqn:Ew; [|discriminate]. exists nm, p, w.
      split; [reflexivity|]. split; [exact Ep|]. split; [exact Ew|]. change (op_max (ex_opts ty 300)) with 300. lia.
    - assert (X : match payload_size toy (ex_opts ty 300) (nx_data (ex_ctx ty)) with Ok ps => 600 <=? ps * 2 ^ 24 | _ => false end = true)
        by (destruct ty; vm_compute; reflexivity).
      destruct (payload_size _ _ _) as [ps|]; [|discriminate]. exists ps. split; [reflexivity|]. cbn [In] in Hn. lia.
    - assert (X : forallb (fun n => match max_pointers toy (fun _ => []) (mkFl 0 0) (ex_opts ty 300) (ex_ctx ty) n 0%nat with (Ok _, _) => true | _ => false end) [600; 0] = true)
        by (destruct ty; vm_compute; reflexivity).
      rewrite forallb_forall in X. specialize (X _ Hn). destruct (max_pointers _ _ _ _ _ _ _) as [[num|] k']; [|discriminate]. eauto.
    - unfold manifests_fit.
      assert (X : match impl_name (nx_man (ex_ctx ty)) (Some (2 ^ 64 - 1)) with
                  | Ok nm => match co_tlv (mkCO nm (Some PT_MANIFEST) (Some []) (op_mexp (ex_opts ty 300)) None) with
                             | Ok c => 8 + tlv_len c + 300 <? 2 ^ 16 | _ => false end
                  | _ => false end = true) by (destruct ty; vm_compute; reflexivity).
      destruct (impl_name _ _) as [nm|]; [|discriminate].
      destruct (co_tlv _) as [c|] eqn:Ec; [|discriminate]. exists nm, c. split; [reflexivity|]. split; [exact Ec|].
      change (op_max (ex_opts ty 300)) with 300. lia. }
  intros ty. split; apply S; vm_compute; tauto.
Qed.

Print Assumptions C52_builds.
Print Assumptions C52_empty.
Print Assumptions C52_refuted.
