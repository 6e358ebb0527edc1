(* C73: a reader whose command line says the same as the writer's reads back
   what was written, however both spell it. *)
From Coq Require Import ZArith List Bool Lia ZifyBool.
From Verif Require Import Py Tlv WireSpec Float Core PropsCore Flic Crypto CryptoProofs PropsCrypto Optimizer PropsOptimizer Tree TreeSpec TreeProofs
  Store StoreSpec StoreProofs PropsStore Traversal TraversalSpec EndSpec PropsEnd PropsDir Uri Apps PropsApps Cli PropsCli.
Import ListNotations.
Open Scope Z_scope.

Section Tells.
Context {P : prims}.
Variable hash : bytes -> Z.
Definition says_mode (t : option text) (m : aalg) : Prop :=
  match t with None => m = GCM | Some x => Forall2 letter x (mode_text m) end.
(* Two command lines, of the writer and of the reader.  The reader has the
   public key of the signature.  If there is an AES key, both lines spell the
   same key, mode and salt, and the reader's the number that the writer's gives
   or, without --key-num, the hash of the key; if there is only an RSA key to
   wrap with, the reader has its private half and no AES key.  The RSA keys of
   the reader can be told apart. *)
Definition tells (w r : ctext P) : Prop :=
  (forall k, ct_key w = Some k -> exists k', ct_key r = Some k' /\ rsa_pub P k' = rsa_pub P k) /\
  match ct_enc w, ct_wrap w with
  | Some x, _ => exists b y m s n z, key_text x b /\ ct_enc r = Some y /\ key_text y b /\
      says_mode (ct_mode w) m /\ says_mode (ct_mode r) m /\
      says (with_sign literal) (ct_salt w) s /\ says (with_sign literal) (ct_salt r) s /\
      match ct_num w with Some t => num_text t n | None => n = hash b end /\
      ct_num r = Some z /\ num_text z n /\ n < 2 ^ 64
  | None, Some k => ct_enc r = None /\ exists sk, ct_wrap r = Some (RPriv sk) /\ pr_pub P sk = rsa_pub P k
  | None, None => True
  end /\
  (forall k k', ct_key r = Some k -> ct_wrap r = Some k' -> rsa_keyid P k = rsa_keyid P k' -> rsa_pub P k = rsa_pub P k').
End Tells.

(* what a text says is unique *)
Lemma key_text_fun t a b : key_text t a -> key_text t b -> a = b.
Proof. intros A B. apply C73_key in A, B. congruence. Qed.
Lemma num_text_fun t a b : num_text t a -> num_text t b -> a = b.
Proof. intros A B. apply C73_number in A, B. congruence. Qed.
Lemma says_fun {A} (m : text -> A -> Prop) t a b : (forall t a b, m t a -> m t b -> a = b) -> says m t a -> says m t b -> a = b.
Proof. intros F. destruct t, a, b; cbn [says]; try tauto; intros X Y; f_equal; eauto. Qed.
Lemma literal_fun t a b : with_sign literal t a -> with_sign literal t b -> a = b.
Proof. intros A B. apply C73_integer in A, B. congruence. Qed.
Lemma says_mode_fun t a b : says_mode t a -> says_mode t b -> a = b.
Proof.
  destruct t as [t|]; cbn [says_mode]; [|congruence]. intros A B. apply (proj1 (C73_mode t)) in A, B. congruence.
Qed.

Theorem C73_told : forall P hash (wt rt : ctext P) w r, means wt w -> means rt r -> tells hash wt rt -> told hash w r.
Proof.
  intros P hash wt rt w r W R (T1 & T2 & T3). split; [|split].
  - intros k K. rewrite (me_key _ _ W) in K. destruct (T1 k K) as (k' & K' & E). exists k'. rewrite (me_key _ _ R). auto.
  - pose proof (me_enc _ _ W) as EW. pose proof (me_enc _ _ R) as ER. rewrite (me_wrap _ _ W), (me_wrap _ _ R).
    destruct (ct_enc wt) as [x|].
    + destruct T2 as (b & y & m & s & n & z & X & Y & YB & MW & MR & SW & SR & N & Z & ZN & B).
      rewrite Y in ER. destruct (ca_enc w) as [bw|]; [|destruct EW]. destruct (ca_enc r) as [br|]; [|destruct ER]. cbn [says] in EW, ER.
      pose proof (key_text_fun _ _ _ X EW) as <-. pose proof (key_text_fun _ _ _ YB ER) as <-.
      pose proof (me_num _ _ R) as NR. rewrite Z in NR. destruct (ca_num r) as [nr|]; [|destruct NR]. cbn [says] in NR.
      pose proof (num_text_fun _ _ _ ZN NR) as <-.
      assert (number_of hash w b = n) as ->.
      { unfold number_of. pose proof (me_num _ _ W) as NW. destruct (ct_num wt) as [t|], (ca_num w) as [nw|]; cbn [says] in NW; try destruct NW; [|congruence].
        apply (num_text_fun t); [split|]; assumption. }
      split; [reflexivity|]. split; [|split; [|split; [reflexivity|exact B]]].
      * pose proof (me_mode _ _ W) as A. pose proof (me_mode _ _ R) as A'.
        rewrite (says_mode_fun (ct_mode rt) (ca_mode r) m), (says_mode_fun (ct_mode wt) (ca_mode w) m); auto.
      * rewrite (says_fun _ _ _ _ literal_fun (me_salt _ _ R) SR). symmetry. exact (says_fun _ _ _ _ literal_fun (me_salt _ _ W) SW).
    + destruct (ca_enc w) as [bw|]; [destruct EW|]. destruct (ct_wrap wt) as [k|]; [|exact I].
      destruct T2 as (E & sk & K & Q). rewrite E in ER. destruct (ca_enc r); [destruct ER|]. split; [reflexivity|]. exists sk. auto.
  - rewrite (me_key _ _ R), (me_wrap _ _ R). exact T3.
Qed.
Print Assumptions C73_told.

Theorem C73_read_back : forall P hash fr clog rnd now (a : wargs P) wt rt data root s s' o dopt r ks nm uri_path ds later,
  log_ok clog -> wa_max a <= 2 ^ 24 -> aead_correct P -> oaep_correct P -> sig_correct P ->
  wa_schema a <> Segmented ->
  whole_seconds (wa_rexp a) -> whole_seconds (wa_mexp a) -> whole_seconds (wa_dexp a) ->
  (ct_key wt <> None -> wire_time now) -> fresh_ok fr ->
  cli_parse P wt = Given (wa_c a) -> cli_parse P rt = Given r -> tells hash wt rt ->
  writer_setup P hash fr now a = Ok (o, dopt) -> ms_out s = [] ->
  writer_run P hash fr clog rnd now a data s = (Ok root, s') -> no_collisions P (ms_out s') ->
  create_keystore P r = Ok ks -> from_uri (Some (wa_name a)) = Ok nm ->
  let d := dw_files (dir_puts P uri_path dopt (ms_out s') ds) in
  exists hr, packet_hash (pr_sha P) root = Ok hr /\ forall fuel, (length (ms_out s') <= fuel)%nat ->
    exists ts, traverse_arg P uri_path later d fuel nm (HVal hr) (tst_new P (Some ks)) = (Ok tt, ts) /\
      concat (ts_out ts) = data /\ ts_count ts = zlen (ms_out s').
Proof.
  intros P hash fr clog rnd now a wt rt data root s s' o dopt r ks nm uri_path ds later HL HM HA HO HS TY W1 W2 W3 N F CW CR T SU S0 R NC K NM.
  apply C73_parsed in CW, CR. pose proof (C73_told _ _ _ _ _ _ CW CR T) as TO.
  apply (C67_writer_read_back P hash fr clog rnd now a data root s s' o dopt r ks nm uri_path ds later); auto.
  rewrite (me_key _ _ CW). exact N.
Qed.
Print Assumptions C73_read_back.

(* The reader spells key and salt in another way and gives the number, which is
   the hash of the key. *)
Section Ex.
Import String.
Local Open Scope string_scope.
Definition ex_wtexts P k : ctext P := mkCT P k None (Some (chars "0x01010101010101010101010101010101"))
  (Some (chars "CCM")) None (Some (chars "0x9")) None None None None.
Definition ex_rtexts P k : ctext P := mkCT P k None (Some (chars "01010101 01010101 01010101 01010101"))
  (Some (chars "ccm")) (Some (chars "0b11")) (Some (chars "9")) None None None None.
Definition ex_wtext : ctext toy := ex_wtexts toy (Some (RPriv (P := toy) 7)).
Definition ex_rtext : ctext toy := ex_rtexts toy (Some (RPub (P := toy) 7)).
Lemma ex_texts P k :
  cli_parse P (ex_wtexts P k) = Given (mkCA P k None (Some (repeat 1 16)) CCM None (Some 9) None None None) /\
  cli_parse P (ex_rtexts P k) = Given (mkCA P k None (Some (repeat 1 16)) CCM (Some 3) (Some 9) None None None).
Proof. split; vm_compute; reflexivity. Qed.
Example C73_read_back_ex : tells ex_hash ex_wtext ex_rtext /\
  cli_parse toy ex_wtext = Given ex_caes /\ cli_parse toy ex_rtext = Given ex_raes.
Proof.
  assert (cli_parse toy ex_wtext = Given ex_caes) as W by exact (proj1 (ex_texts toy (Some (RPriv (P := toy) 7)))).
  assert (cli_parse toy ex_rtext = Given ex_raes) as R by exact (proj2 (ex_texts toy (Some (RPub (P := toy) 7)))).
  split; [|split; assumption]. apply C73_parsed in W, R.
  split; [|split].
  - intros k [= <-]. exists (RPub (P := toy) 7). split; reflexivity.
  - exists (repeat 1 16)%Z, (chars "01010101 01010101 01010101 01010101"), CCM, (Some 9), 3, (chars "0b11").
    split; [exact (me_enc _ _ W)|]. split; [reflexivity|]. split; [exact (me_enc _ _ R)|]. split; [exact (me_mode _ _ W)|].
    split; [exact (me_mode _ _ R)|]. split; [exact (me_salt _ _ W)|]. split; [exact (me_salt _ _ R)|]. split; [reflexivity|].
    split; [reflexivity|]. split; [exact (me_num _ _ R)|lia].
  - intros k k' _ X. discriminate X.
Qed.
End Ex.
