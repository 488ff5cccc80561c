(** Props_Samples.v -- C57: what the sample certificates contain, and when there are
    any. *)
From Coq Require Import String.
From Verif Require Import Base Errors Types StateOps Env Wire Instance Commands Response X509 X509Cert RustCrypto DefaultPlatform Simulator Samples
  Lib Spec Exec Effects Forest History WireSpec Contract Codec Steps Reach CommandSpecs Responses Execute Walk Measure Reasons Explain Der DerProofs X509Run X509Spec
  X509Gen X509Out X509Read X509ReadOk X509Made X509Total X509Sane X509Cmd X509Facts Toy ToyX509 PlatformProofs RustProofs Trace RefFaults
  TraceRust Props_X509 Props_Reference Props_Harness Viewer ViewerProofs ViewerCmd SamplesProofs SamplesAvail Props_Viewer.
Open Scope N_scope.

(** ** What the certificates ought to show *)

(** A row: the SVN, the type as four octets, a current measurement of zeros in locality
    0, and register 0 if there is one. *)
Definition sample_row (p : profile) (svn : N) (ty : bytes) (register : option bytes) (t : vtcb) : Prop :=
  exists alg, is_called alg (hash_name p) /\
  t = {| vt_vendor := None; vt_model := None; vt_version := None; vt_svn := Some svn; vt_layer := None; vt_index := None;
         vt_fwids := [{| vf_alg := alg; vf_digest := repeat 0 (profile_hash_size p) |}]; vt_flags := None;
         vt_vendor_info := Some [0; 0; 0; 0]; vt_type := Some ty; vt_mask := None;
         vt_registers := match register with
                         | Some r => [{| vr_name := None; vr_num := Some 0; vr_digests := [{| vf_alg := alg; vf_digest := r |}] |}]
                         | None => []
                         end |}.
(** The four letters, last one first. *)
Definition TSET : bytes := [84; 83; 69; 84].
Definition one_0WF : bytes := [49; 48; 87; 70].
Definition one_B_B : bytes := [49; 66; 95; 66].
Definition FAEL : bytes := [70; 65; 69; 76].
(** The validity, the issuer and the key identifier that the reference platform gives. *)
Definition issued (issuer ski : bytes) (s : shown) : Prop :=
  (exists idn, sh_issuer s = Some idn /\ enc idn = issuer) /\
  sh_validity s = Some ([50; 48; 50; 51; 48; 50; 50; 55; 48; 48; 48; 48; 48; 48; 90],
                        [57; 57; 57; 57; 49; 50; 51; 49; 50; 51; 53; 57; 53; 57; 90]).
(** The name of a leaf key whose digest is [db]. *)
Definition leaf_name (db : bytes) : der := flat (subject_name [68; 80; 69; 32; 76; 101; 97; 102] (firstn 64 (upper_hex db))).
Definition attest (purpose : bytes) : Prop := is_called purpose "tcg-dice-kp-attestLoc".

(** The reference platform names its issuer [idn]. *)
Record named (issuer serial : bytes) : Prop := {
  nd_issuer : exists idn, proper idn /\ enc idn = issuer /\ name_ok (flat idn) = true;
  nd_bytes : all_bytes issuer;
  nd_serial : all_bytes serial;
  nd_some : serial <> []
}.
Lemma named_issuer chain issuer serial ski : named issuer serial -> issuer_named (default_platform chain issuer serial ski).
Proof.
  intros [(idn & HP & HE & HO) HB _ _] p n b p' H. cbn [po_issuer_name default_platform] in H. unfold default_issuer_name in H.
  destruct (Nat.ltb_spec (List.length (repeat 0%N 128)) (List.length issuer)) as [L|L].
  { apply (f_equal fst) in H. apply (f_equal fst) in H. discriminate. }
  pose proof (f_equal (fun x => fst (fst x)) H) as H1. apply (f_equal (fun x => snd (fst x))) in H. cbn [fst snd] in H, H1.
  assert (n = N.of_nat (List.length issuer)) by congruence. subst n b. rewrite repeat_length in L.
  exists idn. split; [exact HP|]. split; [|exact HO]. rewrite Nat2N.id, to_buf_id.
  - rewrite firstn_app, Nat.sub_diag, firstn_O, app_nil_r, firstn_all. exact HE.
  - rewrite app_length, skipn_length, repeat_length. lia.
  - apply Forall_app. split; [exact HB|]. apply Forall_forall. intros x Hx.
    assert (In x (repeat 0%N 128)) by (rewrite <- (firstn_skipn (List.length issuer) (repeat 0%N 128)); apply in_or_app; right; exact Hx).
    apply repeat_spec in H. subst. reflexivity.
Qed.
Lemma named_signer chain issuer serial ski : named issuer serial -> signer_named (default_platform chain issuer serial ski).
Proof.
  intros [(idn & HP & HE & HO) HB HS HN] p sid p' H.
  pose proof (default_signer_der chain issuer serial ski idn HP HE HB HS HN p sid p' H) as D.
  destruct (cap_sid sid) as [i n|]eqn:EC; [|exact Logic.I]. destruct D as [_ D]. split; [|exact D].
  exists idn. split; [exact HP|]. split; [|exact HO]. rewrite HE.
  cbn [po_signer_identifier default_platform] in H. apply (f_equal fst) in H. cbn [fst] in H.
  unfold default_signer_identifier, default_issuer_name in H. change max_issuer_name_size with 128%nat in H. rewrite repeat_length in H.
  destruct (Nat.ltb_spec 128 (List.length issuer)) as [L|L]; [discriminate|].
  destruct (N.ltb _ _); [discriminate|]. change max_sn_size with 20%nat in H.
  destruct (Nat.ltb_spec 20 (List.length serial)) as [L2|L2]; [discriminate|].
  rewrite Nat2N.id, firstn_app, Nat.sub_diag, firstn_O, app_nil_r, firstn_all in H. injection H as <-.
  cbn [cap_sid] in EC. change max_issuer_name_size with 128%nat in EC. injection EC as <- _.
  unfold to_vec. rewrite firstn_all2 by exact L. clear -HB. induction HB as [|x l Hx Hl IH]; cbn [map]; [reflexivity|].
  rewrite N.mod_small by exact Hx. rewrite <- IH. reflexivity.
Qed.

Section Shown.
  Variables (utf8 : bytes -> bool) (time : N -> bytes -> bool) (pem : bytes -> option bytes).
  Variable cf : config.
  Context {R : Type}.
  Variable pr : primitives R.
  Variables chain issuer serial ski : bytes.
  Hypothesis Hcf : config_ok cf.
  Hypothesis Hnm : named issuer serial.
  Notation co := (rust_ops R pr (profile_alg (prof cf)) (backend_digest (prof cf))).
  Notation po := (default_platform chain issuer serial ski).

  (** The rows of [tcis], the last one first. *)
  Definition rows (recursive : bool) (tcis : list tci) (s : shown) : Prop :=
    Forall2 (fun t v => exists c, c_tci c = t /\ row_of (prof cf) recursive c v) (rev tcis) (sh_tcbs s).
  Lemma rows_of recursive cts s : Forall2 (row_of (prof cf) recursive) (rev cts) (sh_tcbs s) -> rows recursive (map c_tci cts) s.
  Proof.
    unfold rows. rewrite <- map_rev. generalize (sh_tcbs s). induction (rev cts) as [|c l IH]; intros v H; inversion H; subst; cbn [map]; constructor; eauto.
  Qed.
  Definition low (t : tci) : Prop := tci_svn t < 128.
  Lemma low_even cts : Forall low (map c_tci cts) -> even_svns cts.
  Proof.
    intros H. apply uniform_even. rewrite Forall_forall in H.
    assert (K : forall c, In c cts -> svn_len c = 1%nat).
    { intros c Hc. pose proof (H _ (in_map c_tci _ _ Hc)) as L. unfold low in L. unfold svn_len.
      destruct (tci_svn (c_tci c)) as [|q]; [reflexivity|]. do 7 (destruct q as [q|q|]; try reflexivity); lia. }
    intros a b Ha Hb. rewrite (K a Ha), (K b Hb). reflexivity.
  Qed.

  Definition shown_as (csr critical recursive : bool) (tcis : list tci) (s : shown) : Prop :=
    sh_is_csr s = csr /\ rows recursive tcis s /\
    sh_profile s = match prof cf with P256Sha256 => LP256 | P384Sha384 => LP384 | Mldsa87 => LMldsa87 end /\
    sh_ueid s = Some (repeat 0 (profile_hash_size (prof cf))) /\
    is_called (sh_sig_alg s) (signature_name (prof cf)) /\ is_called (sh_key_alg s) (key_name (prof cf)) /\
    (exists db, sh_subject s = leaf_name db /\ sh_serial s = if csr then None else Some (firstn 20 (upper_hex db))) /\
    (if csr then sh_issuer s = None /\ sh_validity s = None else issued issuer ski s) /\
    exists purpose san, attest purpose /\ san_rows san /\
      table_of s = common_rows critical (List.length tcis) (repeat 0 (profile_hash_size (prof cf))) false purpose
        ++ (if csr then [] else [(Some "authorityKeyIdentifier"%string, false, DAki (Some (firstn 20 ski)))]) ++ san.

  Lemma made_shown support flags csr tcis c :
    (csr = false -> time 0x18 default_not_before = true /\ time 0x18 default_not_after = true) -> all_bytes ski ->
    Forall low tcis ->
    made_of cf pr chain issuer serial ski support flags (if csr then 1 else 0) tcis c ->
    exists s, view utf8 time pem c = Some s /\ shown_as csr (N.testbit flags 15) (N.testbit support 30) tcis s.
  Proof.
    intros HT BS LW (w & h & n & w1 & i & cts & Hr & <- & <- & Bh & HF & HL & <- & EX & ->). cbv zeta in *.
    pose proof (reachable_wf cf Hcf _ Hr) as W.
    assert (FU : u32 (if csr then 1 else 0)) by (destruct csr; reflexivity).
    destruct (certify_of_wf cf h (if csr then 1 else 0) Bh FU) as (HW & _ & _ & PR).
    assert (KF : keys_fit cf co) by (apply rust_keys_fit; reflexivity).
    set (cmd := CmdCertifyKey (certify_of cf h (if csr then 1 else 0))) in *.
    assert (XP : exports cmd = false) by reflexivity.
    assert (UE : forall u, ueid_for po cmd u -> u = repeat 0 (profile_hash_size (prof cf))).
    { intros u. unfold cmd, certify_of. destruct (prof cf); intros H; exact H. }
    destruct csr.
    - assert (AR : asks_request cmd) by (unfold cmd, certify_of; destruct (prof cf); discriminate).
      destruct (C56_requests utf8 time pem cf (rust_c R) unit co po cmd 0 (called cf cmd w) n w1 h i cts Hcf KF (named_signer _ _ _ _ Hnm) W HW EX AR PR HF HL (low_even _ LW))
        as (s & db & u & purpose & san & E1 & _ & E2 & E3 & E4 & E5 & _ & (S1 & S2 & S3 & S4 & S5 & S6) & E6 & E7 & E8 & E9).
      cbn [called w_st] in *. destruct S3 as (u' & S3 & S3'). assert (u' = u) by congruence. subst u'. apply UE in S3'. subst u.
      exists s. split; [exact E1|]. split; [exact E2|]. split; [apply rows_of; exact S1|]. split; [exact S6|]. split; [exact S3|].
      split; [exact S4|]. split; [exact S5|]. split; [exists db; split; [exact S2|exact E4]|]. split; [auto|].
      exists purpose, san. split; [exact E7|]. split; [exact E8|]. rewrite map_length. exact E9.
    - assert (AR : asks_certificate cmd) by (unfold cmd, certify_of; destruct (prof cf); reflexivity).
      assert (VT : valid_times po time).
      { intros p v p' H. cbn [po_cert_validity default_platform] in H. apply (f_equal fst) in H. cbn [fst] in H. injection H as <-. exact (HT eq_refl). }
      destruct (C56_certificates utf8 time pem cf (rust_c R) unit co po cmd 0 (called cf cmd w) n w1 h i cts [] Hcf KF (named_issuer _ _ _ _ Hnm) VT W HW EX AR PR HF HL (low_even _ LW))
        as (s & key & db & db2 & idn & v & aki & u & purpose & san & E1 & E2 & _ & _ & _ & (S1 & S2 & S3 & S4 & S5 & S6) & PG & E3 & E4 & E5 & E6 & E7 & E8 & E9).
      rewrite app_nil_r in E1. cbn [called w_st] in *. destruct S3 as (u' & S3 & S3'). assert (u' = u) by congruence. subst u'. apply UE in S3'. subst u.
      destruct PG as ((p & m & b & p' & G1 & G1') & (q & v0 & q' & G2 & G2') & (q2 & u & b2 & q2' & G3 & G3')).
      exists s. split; [exact E1|]. split; [exact E2|]. rewrite XP in *. split; [apply rows_of; exact S1|]. split; [exact S6|]. split; [exact S3|].
      split; [exact S4|]. split; [exact S5|]. split; [exists db; split; [exact S2|exact E5]|].
      assert (EI : enc idn = issuer).
      { rewrite G1'. destruct Hnm as [_ HB _ _]. clear -G1 HB. cbn [po_issuer_name default_platform] in G1. unfold default_issuer_name in G1.
        destruct (Nat.ltb_spec (List.length (repeat 0%N 128)) (List.length issuer)) as [L|L].
        { apply (f_equal fst) in G1. apply (f_equal fst) in G1. discriminate. }
        pose proof (f_equal (fun x => fst (fst x)) G1) as H1. apply (f_equal (fun x => snd (fst x))) in G1. cbn [fst snd] in G1, H1.
        assert (m = N.of_nat (List.length issuer)) by congruence. subst m b. rewrite repeat_length in L. rewrite Nat2N.id, to_buf_id.
        - rewrite firstn_app, Nat.sub_diag, firstn_O, app_nil_r, firstn_all. reflexivity.
        - rewrite app_length, skipn_length, repeat_length. lia.
        - apply Forall_app. split; [exact HB|]. apply Forall_forall. intros x Hx.
          assert (X : In x (repeat 0%N 128)) by (rewrite <- (firstn_skipn (List.length issuer) (repeat 0%N 128)); apply in_or_app; right; exact Hx).
          apply repeat_spec in X. subst. reflexivity. }
      split.
      { split; [exists idn; split; [exact E3|exact EI]|]. rewrite E4, G2'. cbn [po_cert_validity default_platform] in G2.
        apply (f_equal fst) in G2. cbn [fst] in G2. injection G2 as <-. reflexivity. }
      exists purpose, san. split; [exact E7|]. split; [exact E8|]. rewrite map_length.
      replace (firstn 20 ski) with aki; [exact E9|].
      rewrite G3'. cbn [po_issuer_key_identifier default_platform] in G3. unfold default_issuer_key_identifier, max_key_identifier_size in G3.
      destruct (Nat.ltb_spec (List.length ski) 20) as [K|K]; [discriminate|]. assert (b2 = firstn 20 ski) by congruence. subst b2.
      apply to_buf_id; [rewrite firstn_length; lia|]. rewrite <- (firstn_skipn 20 ski) in BS. apply Forall_app in BS. apply BS.
  Qed.
End Shown.

(** The sample program: a certificate or a request for the context TEST below the root,
    in a DPE without recursion, so without registers. *)
Theorem C57_sample :
  forall utf8 time pem cf R (pr : primitives R) chain issuer serial ski critical csr seed label c,
    config_ok cf -> prof cf = sample_profile cf -> named issuer serial -> all_bytes ski ->
    (csr = false -> time 0x18 default_not_before = true /\ time 0x18 default_not_after = true) ->
    sample_main cf R pr chain issuer serial ski critical csr seed = Some (label, c) ->
    label = (if csr then "PKCS7" else "CERTIFICATE")%string /\
    exists s root test tcis, view utf8 time pem c = Some s /\ shown_as cf issuer ski csr critical false tcis s /\ List.length tcis = 2%nat /\
      sh_tcbs s = [root; test] /\
      sample_row (prof cf) 0 [0; 0; 0; 0] None root /\ sample_row (prof cf) 0 TSET None test.
Proof.
  intros utf8 time pem cf R pr chain issuer serial ski critical csr seed label c Hcf EP NM BS HT H.
  apply (sample_made cf pr chain issuer serial ski Hcf critical csr seed label c EP) in H as (EL & _ & H). split; [exact EL|].
  apply (made_shown utf8 time pem cf pr chain issuer serial ski Hcf NM) in H as (s & EV & H); [|exact HT|exact BS|repeat constructor].
  replace (N.testbit (if critical then bit 15 else 0) 15) with critical in H by (destruct critical; reflexivity).
  change (N.testbit sample_support 30) with false in H. pose proof H as (_ & RW & _). unfold rows in RW. cbn [rev app] in RW.
  assert (EZ : tci_size cf = profile_hash_size (prof cf)) by (rewrite EP; unfold sample_profile, sim_profile, tci_size; destruct (feat_p384 cf), (feat_mldsa cf); reflexivity).
  rewrite EZ in RW.
  inversion RW as [|t1 root l1 l2 (c1 & F1 & alg1 & A1 & R1) RW2 E1 E2]; subst. inversion RW2 as [|t2 test l3 l4 (c2 & F2 & alg2 & A2 & R2) RW3 E3 E4]; subst.
  inversion RW3; subst. exists s. eexists. eexists. eexists. split; [exact EV|]. split; [exact H|]. split; [reflexivity|]. split; [symmetry; exact E2|].
  split; [exists alg1|exists alg2]; (split; [assumption|]); [rewrite F1|rewrite F2]; reflexivity.
Qed.
Print Assumptions C57_sample.

(** The certificate built into the viewer: one of the context LEAF below B_B1 below FW01
    below the root, with registers; or, if the third DeriveContext gave parent and child
    the same handle, and only then, without B_B1. *)
Theorem C57_build :
  forall utf8 time pem cf R (pr : primitives R) chain issuer serial ski seed label c,
    config_ok cf -> prof cf = P384Sha384 -> named issuer serial -> all_bytes ski ->
    time 0x18 default_not_before = true -> time 0x18 default_not_after = true ->
    build_main cf R pr chain issuer serial ski seed = Some (label, c) ->
    let register := pr_sha384 pr (repeat 0 96) in
    label = "CERTIFICATE"%string /\
    exists s tcis root fw b leaf, view utf8 time pem c = Some s /\ shown_as cf issuer ski false false true tcis s /\ List.length tcis = List.length (sh_tcbs s) /\
      sh_profile s = LP384 /\
      sample_row P384Sha384 0 [0; 0; 0; 0] (Some (repeat 0 48)) root /\ sample_row P384Sha384 1 one_0WF (Some (digest_bytes (DSha384 register))) fw /\
      sample_row P384Sha384 2 one_B_B (Some (digest_bytes (DSha384 register))) b /\ sample_row P384Sha384 3 FAEL (Some (digest_bytes (DSha384 register))) leaf /\
      exists w0 p1 h1 w1 h2 c2 w2 p3 h3 w3,
        sample_start cf R pr chain issuer serial ski build_support 0 seed = Some w0 /\
        sample_derive cf R pr chain issuer serial ski (repeat 0 16) (repeat 0 48) (letters str_FW01) 1 0 w0 = (Some (p1, h1), w1) /\
        sample_derive cf R pr chain issuer serial ski h1 (repeat 0 48) (letters str_B_A1) 2 (bit 29) w1 = (Some (h2, c2), w2) /\
        sample_derive cf R pr chain issuer serial ski h2 (repeat 0 48) (letters str_B_B1) 2 (bit 29) w2 = (Some (p3, h3), w3) /\
        (p3 <> h3 -> sh_tcbs s = [root; fw; b; leaf]) /\ (p3 = h3 -> sh_tcbs s = [root; fw; leaf]).
Proof.
  intros utf8 time pem cf R pr chain issuer serial ski seed label c Hcf EP NM BS T1 T2 H register.
  apply (build_made cf pr chain issuer serial ski Hcf seed label c EP) in H as (EL & _ & w0 & p1 & h1 & w1 & h2 & c2 & w2 & p3 & h3 & w3 & D0 & D1 & D2 & D3 & H). split; [exact EL|].
  assert (HT : false = false -> time 0x18 default_not_before = true /\ time 0x18 default_not_after = true) by auto.
  assert (EZ : tci_size cf = 48%nat) by (destruct Hcf as (_ & X & _); unfold profile_enabled in X; rewrite EP in X; unfold tci_size; rewrite X; reflexivity).
  rewrite EZ in D1, D2, D3.
  destruct H as [[NE H]|[SAME H]].
  - apply (made_shown utf8 time pem cf pr chain issuer serial ski Hcf NM _ _ false) in H as (s & EV & H); [|exact HT|exact BS|repeat constructor].
    change (N.testbit build_support 30) with true in H. change (N.testbit 0 15) with false in H. pose proof H as (_ & RW & EPR & _).
    rewrite EP in EPR. unfold rows in RW. cbn [rev app] in RW. rewrite EZ, EP in RW.
    inversion RW as [|t1 root l1 l2 (c1 & F1 & alg1 & A1 & R1) RW2 E1 E2]; subst. inversion RW2 as [|t2 fw l3 l4 (k2 & F2 & alg2 & A2 & R2) RW3 E3 E4]; subst.
    inversion RW3 as [|t3 b l5 l6 (c3 & F3 & alg3 & A3 & R3) RW4 E5 E6]; subst. inversion RW4 as [|t4 leaf l7 l8 (c4 & F4 & alg4 & A4 & R4) RW5 E7 E8]; subst.
    inversion RW5; subst. exists s. do 5 eexists. split; [exact EV|]. split; [exact H|]. split; [rewrite <- E2; reflexivity|]. split; [exact EPR|].
    split; [|split; [|split; [|split; [|do 10 eexists; split; [exact D0|]; split; [exact D1|]; split; [exact D2|]; split; [exact D3|]; split; [intros _; symmetry; exact E2|intros X; destruct (NE X)]]]]]; [exists alg1|exists alg2|exists alg3|exists alg4]; (split; [assumption|]);
      [rewrite F1|rewrite F2|rewrite F3|rewrite F4]; reflexivity.
  - apply (made_shown utf8 time pem cf pr chain issuer serial ski Hcf NM _ _ false) in H as (s & EV & H); [|exact HT|exact BS|repeat constructor].
    change (N.testbit build_support 30) with true in H. change (N.testbit 0 15) with false in H. pose proof H as (_ & RW & EPR & _).
    rewrite EP in EPR. unfold rows in RW. cbn [rev app] in RW. rewrite EZ, EP in RW.
    inversion RW as [|t1 root l1 l2 (c1 & F1 & alg1 & A1 & R1) RW2 E1 E2]; subst. inversion RW2 as [|t2 fw l3 l4 (k2 & F2 & alg2 & A2 & R2) RW3 E3 E4]; subst.
    inversion RW3 as [|t4 leaf l7 l8 (c4 & F4 & alg4 & A4 & R4) RW5 E7 E8]; subst.
    inversion RW5; subst. exists s. do 5 eexists. split; [exact EV|]. split; [exact H|]. split; [rewrite <- E2; reflexivity|]. split; [exact EPR|].
    split; [|split; [|split; [|split; [|do 10 eexists; split; [exact D0|]; split; [exact D1|]; split; [exact D2|]; split; [exact D3|]; split; [intros X; destruct (X eq_refl)|intros _; symmetry; exact E2]]]]]; [exists alg1|exists alg2|exists alg1|exists alg4]; (split; [assumption|]);
      [rewrite F1|rewrite F2| |rewrite F4]; reflexivity.
Qed.
Print Assumptions C57_build.

(** ** When there are any *)

(** With the reference back end, the sample program makes its certificate unless a DPE
    has a single context or the back end derives a key that it cannot use; its request
    unless moreover the DPE has two contexts only.  It draws no random bytes, so a bad
    generator does no harm. *)
Theorem C57_sample_runs :
  forall cf R (pr : primitives R) chain issuer serial ski critical csr seed,
    reference cf pr (backend_digest (prof cf)) chain issuer serial ski -> prof cf = sample_profile cf ->
    let run := sample_main cf R pr chain issuer serial ski critical csr seed in
    (max_handles cf = 1%nat -> run = None) /\
    (run = None -> max_handles cf = 1%nat \/
       (exists salt ikm info k, pr_kdf pr (profile_alg (prof cf)) salt ikm info = Some k /\ pr_usable pr (profile_alg (prof cf)) k = false) \/
       (csr = true /\ max_handles cf = 2%nat)).
Proof.
  intros cf R pr chain issuer serial ski critical csr seed RF EP run. pose proof (rf_config _ _ _ _ _ _ _ RF) as Hcf. split.
  - intros M. destruct run as [[label c]|] eqn:E; [exfalso|reflexivity]. apply (sample_made cf pr chain issuer serial ski Hcf critical csr seed label c EP) in E as (_ & X & _). lia.
  - intros E. destruct (Nat.eq_dec (max_handles cf) 1) as [M|M]; [left; exact M|right].
    apply (sample_avail cf pr chain issuer serial ski RF critical csr seed) in E; [exact E|]. destruct Hcf as ((X & _) & _). lia.
Qed.
Print Assumptions C57_sample_runs.

(** The certificate built into the viewer: never in a DPE with fewer than five contexts;
    else, with a generator of which no eight draws in a row repeat one, unless the back
    end derives a key that it cannot use. *)
Theorem C57_build_runs :
  forall cf R (pr : primitives R) chain issuer serial ski seed,
    reference cf pr (backend_digest (prof cf)) chain issuer serial ski -> prof cf = P384Sha384 ->
    let run := build_main cf R pr chain issuer serial ski seed in
    ((max_handles cf < 5)%nat -> run = None) /\
    (varied pr -> run = None -> (max_handles cf < 5)%nat \/
       (exists salt ikm info k, pr_kdf pr (profile_alg (prof cf)) salt ikm info = Some k /\ pr_usable pr (profile_alg (prof cf)) k = false)).
Proof.
  intros cf R pr chain issuer serial ski seed RF EP run. pose proof (rf_config _ _ _ _ _ _ _ RF) as Hcf. split.
  - intros M. destruct run as [[label c]|] eqn:E; [exfalso|reflexivity]. apply (build_made cf pr chain issuer serial ski Hcf seed label c EP) in E as (_ & X & _). lia.
  - intros V E. destruct (Nat.ltb_spec (max_handles cf) 5) as [M|M]; [left; exact M|right].
    exact (build_avail cf pr chain issuer serial ski RF seed EP V M E).
Qed.
Print Assumptions C57_build_runs.

(** ** Cases *)

Definition five_cf : config :=
  {| max_handles := 5; feat_p256 := false; feat_p384 := true; feat_mldsa := false; prof := P384Sha384; fuel := 6 |}.
Lemma five_cf_ok : config_ok five_cf.
Proof. unfold config_ok; cbn. repeat split; lia. Qed.
Lemma five_reference : reference five_cf toy_pr (backend_digest (prof five_cf)) ref_chain [48; 0] [1; 2] (repeat 7 20).
Proof.
  split.
  - exact five_cf_ok.
  - right; reflexivity.
  - split.
    + intros b. apply length_to_buf.
    + intros. eexists. split; [reflexivity|]. discriminate.
    + discriminate.
    + exists [9]. split; [reflexivity|discriminate].
  - reflexivity.
  - split; [discriminate|]. repeat split; apply Nat.leb_le; reflexivity.
  - apply Nat.ltb_lt. vm_compute. reflexivity.
Qed.
Lemma empty_named : named [48; 0] [1; 2].
Proof.
  split; [|repeat constructor|repeat constructor|discriminate]. exists (Cons 48 []). split; [|split; reflexivity]. vm_compute. repeat split; discriminate.
Qed.
Lemma NoDup_map_in {A B} (f : A -> B) l : (forall a b, In a l -> In b l -> f a = f b -> a = b) -> NoDup l -> NoDup (map f l).
Proof.
  induction 2 as [|x l N D IH]; cbn [map]; constructor.
  - intros X. apply in_map_iff in X as (y & E & Hy). apply N. rewrite (H x y); [exact Hy|left; reflexivity|right; exact Hy|congruence].
  - apply IH. intros a b Ha Hb. apply H; right; assumption.
Qed.
Lemma after_toy n : forall g, after toy_pr n g = g + N.of_nat n.
Proof. induction n as [|n IH]; intros g; cbn [after]; [lia|]. rewrite IH. cbn [toy_pr pr_fill snd]. lia. Qed.
Lemma toy_varied : varied toy_pr.
Proof.
  intros g. apply NoDup_map_in; [|apply seq_NoDup]. intros a b Ha Hb E. apply in_seq in Ha, Hb. unfold block_after in E. rewrite !after_toy in E.
  cbn [toy_pr pr_fill fst] in E.
  assert (K : forall x, to_buf 16 (repeat (x mod 256) 16) = repeat (x mod 256) 16).
  { intros x. apply to_buf_id; [apply repeat_length|]. apply Forall_forall. intros y Hy. apply repeat_spec in Hy. subst. apply N.mod_lt. discriminate. }
  rewrite !K in E. injection E as E.
  pose proof (N.div_mod (g + N.of_nat a + 1) 256 ltac:(discriminate)). pose proof (N.div_mod (g + N.of_nat b + 1) 256 ltac:(discriminate)). lia.
Qed.

(** The hypotheses of the four theorems are met; the toy runs show what they say. *)
Example C57_sample_case :
  reference toy_cf toy_pr (backend_digest (prof toy_cf)) ref_chain [48; 0] [1; 2] (repeat 7 20) /\ prof toy_cf = sample_profile toy_cf /\ named [48; 0] [1; 2] /\
  (forall k, pr_usable toy_pr (profile_alg (prof toy_cf)) k = true) /\
  exists c c' s s', sample_main toy_cf N toy_pr ref_chain [48; 0] [1; 2] (repeat 7 20) true false 3 = Some ("CERTIFICATE"%string, c) /\
    sample_main toy_cf N toy_pr ref_chain [48; 0] [1; 2] (repeat 7 20) false true 3 = Some ("PKCS7"%string, c') /\
    view yes any_time Some c = Some s /\ view yes any_time Some c' = Some s' /\
    map vt_type (sh_tcbs s) = [Some [0; 0; 0; 0]; Some TSET] /\ map vt_type (sh_tcbs s') = [Some [0; 0; 0; 0]; Some TSET].
Proof.
  split; [exact toy_reference|]. split; [reflexivity|]. split; [exact empty_named|]. split; [intros k; reflexivity|]. do 4 eexists.
  split; [vm_compute; reflexivity|]. split; [vm_compute; reflexivity|]. split; [vm_compute; reflexivity|]. split; [vm_compute; reflexivity|]. split; reflexivity.
Qed.
Example C57_build_case :
  reference five_cf toy_pr (backend_digest (prof five_cf)) ref_chain [48; 0] [1; 2] (repeat 7 20) /\ varied toy_pr /\
  (forall k, pr_usable toy_pr (profile_alg (prof five_cf)) k = true) /\
  exists c s, build_main five_cf N toy_pr ref_chain [48; 0] [1; 2] (repeat 7 20) 3 = Some ("CERTIFICATE"%string, c) /\
    view yes any_time Some c = Some s /\ map vt_type (sh_tcbs s) = [Some [0; 0; 0; 0]; Some one_0WF; Some one_B_B; Some FAEL] /\
    map vt_svn (sh_tcbs s) = [Some 0; Some 1; Some 2; Some 3].
Proof.
  split; [exact five_reference|]. split; [exact toy_varied|]. split; [intros k; reflexivity|]. do 2 eexists.
  split; [vm_compute; reflexivity|]. split; [vm_compute; reflexivity|]. split; reflexivity.
Qed.

(** A generator that gives every block twice. *)
Definition twice_pr : primitives N :=
  {| pr_fill := fun n r => (repeat (r / 2 + 1) n, r + 1);
     pr_sha256 := pr_sha256 toy_pr; pr_sha384 := pr_sha384 toy_pr; pr_hkdf256 := pr_hkdf256 toy_pr; pr_hkdf384 := pr_hkdf384 toy_pr;
     pr_valid256 := pr_valid256 toy_pr; pr_valid384 := pr_valid384 toy_pr; pr_point256 := pr_point256 toy_pr; pr_point384 := pr_point384 toy_pr;
     pr_sign256 := pr_sign256 toy_pr; pr_sign384 := pr_sign384 toy_pr; pr_mldsa_public := pr_mldsa_public toy_pr;
     pr_mldsa_sign_mu := pr_mldsa_sign_mu toy_pr; pr_mldsa_sign := pr_mldsa_sign toy_pr;
     pr_alias256 := pr_alias256 toy_pr; pr_alias384 := pr_alias384 toy_pr; pr_alias_mldsa := pr_alias_mldsa toy_pr |}.
(** The context B_B1 need not be in the certificate: DeriveContext gave it the handle of
    its parent, so the next DeriveContext found the parent. *)
Theorem C57_build_refuted :
  exists c s,
    config_ok five_cf /\ named [48; 0] [1; 2] /\
    build_main five_cf N twice_pr ref_chain [48; 0] [1; 2] (repeat 7 20) 0 = Some ("CERTIFICATE"%string, c) /\
    view yes any_time Some c = Some s /\ map vt_type (sh_tcbs s) = [Some [0; 0; 0; 0]; Some one_0WF; Some FAEL].
Proof.
  do 2 eexists. split; [exact five_cf_ok|]. split; [exact empty_named|]. split; [vm_compute; reflexivity|]. split; [vm_compute; reflexivity|]. reflexivity.
Qed.
Print Assumptions C57_build_refuted.
