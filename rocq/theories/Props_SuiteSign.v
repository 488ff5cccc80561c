(** Props_SuiteSign.v -- the tests of the verification suite that verify signatures
    (verification/testing/sign.go, sign_raw.go).  Property C62. *)
From Coq Require Ascii String.
From Verif Require Import Base Errors Types StateOps Env Wire Instance Commands RespBuf Response X509 X509Cert RustCrypto DefaultPlatform Simulator GoClient Suite ClientSpec
  Lib Spec Exec Effects Forest History WireSpec Contract Codec Steps Reach CommandSpecs Responses Execute Walk Measure Reasons Explain Avail X509Spec X509Cmd X509Facts
  X509Fit X509Fail X509Sane PlatformProofs RustProofs Trace TraceCmds TraceRust RefFaults Toy Ledger Props_Commands Props_Keys Props_Avail Props_Reference Props_Size Props_Fail Props_Calls
  Props_Handles Props_Tree Props_Harness SimulatorProofs Props_Simulator ClientProofs ClientChain Props_Client SuiteProofs SuiteCases SuiteInit SuiteRun Props_Suite
  SuiteDerive SuiteDeriveState SuiteFollow SuiteDeriveCases SuiteDeriveRun Props_SuiteDerive SuiteMax SuiteMaxProofs SuiteSign SuiteSignProofs.
Local Open Scope N_scope.

(** What the tests start from: the context [p], at the end of this chain, is the default one
    of its locality and may be used for signatures and certificates. *)
Definition ready (s : state) (l : N) (p : nat) (cts : list context) : Prop :=
  first_slot (names s (repeat 0 16) l) p /\ (exists x, at_slot s p x /\ c_x509 x = true /\ c_type x = Normal) /\ lineage s p cts /\ supports s X509.
(** What they leave: the device as it was. *)
Definition as_before cf {R} (w : world (rust_c R) unit) (l : N) (i : bool) (b : bench (the_device R)) : Prop :=
  exists w', b = at_ w' l i /\ reachable cf (w_st w') /\ w_st w' = w_st w.
(** CertifyKey for the default context answers with this key and this certificate. *)
Definition answered cf R (pr : primitives R) chain issuer serial ski c w l i (label a b cert : bytes) : Prop :=
  exists w1, Suite.call (the_device R) (sim_send cf R pr chain issuer serial ski) c (GcCertify (repeat 0 16) label 0 0) (at_ w l i) =
             (Some (GoOk (VKey (repeat 0 16) a b cert)), [], at_ w1 l i).
(** The key of the context: derived from the measurements of its chain and the label. *)
Definition own_key cf {R} (pr : primitives R) chain (s : state) cts (label : bytes) : pubkey :=
  context_key cf (rust_hash pr (backend_digest (prof cf))) (rust_pub pr (profile_alg (prof cf))) (st_support s) 0 0 chain cts label.
(** A secret was derived that ECDSA does not accept. *)
Definition unusable cf {R} (pr : primitives R) : Prop :=
  exists salt ikm info key, pr_kdf pr (profile_alg (prof cf)) salt ikm info = Some key /\ pr_usable pr (profile_alg (prof cf)) key = false.

(** TestAsymmetricSigning with P-256, in any reachable state with a default context.  The
    public key that CertifyKey hands out is that of the context; [r] and [s] are the
    signature of the test's digest by a secret key of that public key; and the test says
    what Go's verifier says about them.  It stops before only if a derived secret is not a
    scalar or Go does not parse the certificate.  The device is left as it was. *)
Theorem C62_p256 :
  forall cf R (pr : primitives R) chain issuer serial ski sup c parses verify256 verify384 mldsa_key mldsa_verify external_mu w l i p cts,
    reference cf pr (backend_digest (prof cf)) chain issuer serial ski -> all_bytes chain -> made_for cf c -> reachable cf (w_st w) -> u32 l ->
    prof cf = P256Sha256 -> ready (w_st w) l p cts ->
    exists o cs b', test_asymmetric (the_device R) (sim_send cf R pr chain issuer serial ski) sup c parses verify256 verify384 mldsa_key mldsa_verify external_mu (at_ w l i) = (o, cs, b') /\
      as_before cf w l i b' /\
      (((cs = [Stopped 48] \/ cs = [Stopped 59]) /\ unusable cf pr) \/
       exists key x y r s cert,
         own_key cf pr chain (w_st w) cts (counting 32) = PkEcdsa256 x y /\ pr_point256 pr key = (x, y) /\ pr_sign256 pr key (counting 32) = Some (r, s) /\
         answered cf R pr chain issuer serial ski c w l i (counting 32) (to_buf 32 x) (to_buf 32 y) cert /\
         cs = if parses cert
              then if verify256 (big_int (to_buf 32 x)) (big_int (to_buf 32 y)) (counting 32) (big_int (to_buf 32 r)) (big_int (to_buf 32 s)) then [] else [Failed 103]
              else [Stopped 80]).
Proof.
  intros cf R pr chain issuer serial ski sup c parses verify256 verify384 mldsa_key mldsa_verify external_mu w l i p cts RF HB MF Hr Ul PM (F & (x & Hx & HX & HT) & HL & SX).
  pose proof (asymmetric_ends cf R pr chain issuer serial ski RF HB sup c MF parses verify256 verify384 mldsa_key mldsa_verify external_mu ltac:(congruence) w l i p x cts Hr Ul SX F Hx HX HT HL) as E.
  destruct (test_asymmetric _ _ _ _ _ _ _ _ _ _ _) as [[o cs] b']. exists o, cs, b'. split; [reflexivity|]. destruct E as [S E]. split; [exact S|].
  pose proof (kind_of cf c MF) as KO. rewrite PM in KO. destruct KO as (_ & K1 & K2).
  destruct E as [([_ B] & E)|(a & b & cert & r & s & sg & g & [CE KP] & (key & RV & EK) & SP & ->)]; [left; auto|right].
  unfold the_data, asymmetric_verdict in *. rewrite K1, K2 in *. fold (own_key cf pr chain (w_st w) cts (counting 32)) in *. rewrite PM in RV |- *. cbn [profile_alg] in RV.
  rewrite PM in EK. cbn [profile_alg rust_public] in EK. destruct (pr_point256 pr key) as [px py] eqn:EP. rewrite EK in KP. cbn [key_parts] in KP. destruct KP as [-> ->].
  destruct g as [gr gs|gr gs|gg]; try contradiction RV. destruct SP as [-> ->].
  exists key, px, py, gr, gs, cert. split; [exact EK|]. split; [exact EP|]. split; [exact RV|]. split; [exact CE|reflexivity].
Qed.
Print Assumptions C62_p256.

(** The same with P-384. *)
Theorem C62_p384 :
  forall cf R (pr : primitives R) chain issuer serial ski sup c parses verify256 verify384 mldsa_key mldsa_verify external_mu w l i p cts,
    reference cf pr (backend_digest (prof cf)) chain issuer serial ski -> all_bytes chain -> made_for cf c -> reachable cf (w_st w) -> u32 l ->
    prof cf = P384Sha384 -> ready (w_st w) l p cts ->
    exists o cs b', test_asymmetric (the_device R) (sim_send cf R pr chain issuer serial ski) sup c parses verify256 verify384 mldsa_key mldsa_verify external_mu (at_ w l i) = (o, cs, b') /\
      as_before cf w l i b' /\
      (((cs = [Stopped 48] \/ cs = [Stopped 59]) /\ unusable cf pr) \/
       exists key x y r s cert,
         own_key cf pr chain (w_st w) cts (counting 48) = PkEcdsa384 x y /\ pr_point384 pr key = (x, y) /\ pr_sign384 pr key (counting 48) = Some (r, s) /\
         answered cf R pr chain issuer serial ski c w l i (counting 48) (to_buf 48 x) (to_buf 48 y) cert /\
         cs = if parses cert
              then if verify384 (big_int (to_buf 48 x)) (big_int (to_buf 48 y)) (counting 48) (big_int (to_buf 48 r)) (big_int (to_buf 48 s)) then [] else [Failed 103]
              else [Stopped 80]).
Proof.
  intros cf R pr chain issuer serial ski sup c parses verify256 verify384 mldsa_key mldsa_verify external_mu w l i p cts RF HB MF Hr Ul PM (F & (x & Hx & HX & HT) & HL & SX).
  pose proof (asymmetric_ends cf R pr chain issuer serial ski RF HB sup c MF parses verify256 verify384 mldsa_key mldsa_verify external_mu ltac:(congruence) w l i p x cts Hr Ul SX F Hx HX HT HL) as E.
  destruct (test_asymmetric _ _ _ _ _ _ _ _ _ _ _) as [[o cs] b']. exists o, cs, b'. split; [reflexivity|]. destruct E as [S E]. split; [exact S|].
  pose proof (kind_of cf c MF) as KO. rewrite PM in KO. destruct KO as (_ & K1 & K2).
  destruct E as [([_ B] & E)|(a & b & cert & r & s & sg & g & [CE KP] & (key & RV & EK) & SP & ->)]; [left; auto|right].
  unfold the_data, asymmetric_verdict in *. rewrite K1, K2 in *. fold (own_key cf pr chain (w_st w) cts (counting 48)) in *. rewrite PM in RV |- *. cbn [profile_alg] in RV.
  rewrite PM in EK. cbn [profile_alg rust_public] in EK. destruct (pr_point384 pr key) as [px py] eqn:EP. rewrite EK in KP. cbn [key_parts] in KP. destruct KP as [-> ->].
  destruct g as [gr gs|gr gs|gg]; try contradiction RV. destruct SP as [-> ->].
  exists key, px, py, gr, gs, cert. split; [exact EK|]. split; [exact EP|]. split; [exact RV|]. split; [exact CE|reflexivity].
Qed.
Print Assumptions C62_p384.

(** ML-DSA: the three tests never stop at the device.  TestAsymmetricSigning hands the
    external mu of its message to Sign, TestSignRawMode the message itself; what they say is
    what Go's verifier says about the message, the key of the context and the signature.
    TestSignRawConsistencyWithNormalMu does both for one message, and compares the two. *)
Theorem C62_mldsa :
  forall cf R (pr : primitives R) chain issuer serial ski sup c parses verify256 verify384 (mldsa_key : bytes -> bool) (mldsa_verify : bytes -> bytes -> bytes -> bool) external_mu w l i p cts,
    reference cf pr (backend_digest (prof cf)) chain issuer serial ski -> all_bytes chain -> made_for cf c -> reachable cf (w_st w) -> u32 l ->
    prof cf = Mldsa87 -> (forall m x, byte_string 64 (external_mu m x)) -> ready (w_st w) l p cts ->
    let send := sim_send cf R pr chain issuer serial ski in
    let public q := own_key cf pr chain (w_st w) cts (counting 48) = PkMldsa q in
    let buf q := to_buf (N.to_nat 2592) q in let sig s := to_buf (N.to_nat 4627) s in
    let says (key m g : bytes) (l1 l2 : N) : list complaint := if mldsa_key key then if mldsa_verify key m g then [] else [Failed l2] else [Stopped l1] in
    (exists o b' key b cert, public (pr_mldsa_public pr key) /\
       answered cf R pr chain issuer serial ski c w l i (counting 48) (buf (pr_mldsa_public pr key)) b cert /\ as_before cf w l i b' /\
       test_asymmetric (the_device R) send sup c parses verify256 verify384 mldsa_key mldsa_verify external_mu (at_ w l i) =
       (o, says (buf (pr_mldsa_public pr key)) (counting 64) (sig (pr_mldsa_sign_mu pr key (external_mu (counting 64) (buf (pr_mldsa_public pr key))))) 69 73, b')) /\
    (exists o b' key, public (pr_mldsa_public pr key) /\ as_before cf w l i b' /\
       test_sign_raw (the_device R) send sup c mldsa_key mldsa_verify (at_ w l i) =
       (o, says (buf (pr_mldsa_public pr key)) raw_message (sig (pr_mldsa_sign pr key raw_message)) 60 65, b')) /\
    (exists o b' q key1 key2, public q /\ pr_mldsa_public pr key1 = q /\ pr_mldsa_public pr key2 = q /\ as_before cf w l i b' /\
       let g1 := sig (pr_mldsa_sign pr key1 other_message) in let g2 := sig (pr_mldsa_sign_mu pr key2 (external_mu other_message (buf q))) in
       test_raw_consistency (the_device R) send sup c mldsa_key mldsa_verify external_mu (at_ w l i) =
       (o, if mldsa_key (buf q)
           then (if mldsa_verify (buf q) other_message g1 then [] else [Failed 124]) ++ (if mldsa_verify (buf q) other_message g2 then [] else [Failed 128]) ++
                (if same_handle g1 g2 then [] else [Failed 132])
           else [Stopped 120], b')).
Proof.
  intros cf R pr chain issuer serial ski sup c parses verify256 verify384 mldsa_key mldsa_verify external_mu w l i p cts RF HB MF Hr Ul PM MU (F & (x & Hx & HX & HT) & HL & SX) send public buf sig says.
  pose proof (kind_of cf c MF) as KO. rewrite PM in KO. destruct KO as (_ & K1 & K2). split; [|split].
  - pose proof (asymmetric_ends cf R pr chain issuer serial ski RF HB sup c MF parses verify256 verify384 mldsa_key mldsa_verify external_mu (fun _ => MU) w l i p x cts Hr Ul SX F Hx HX HT HL) as E.
    subst send. destruct (test_asymmetric _ _ _ _ _ _ _ _ _ _ _) as [[o cs] b']. destruct E as [S E].
    destruct E as [([N _] & _)|(a & b & cert & r & s & sg & g & [CE KP] & (key & RV & EK) & SP & ->)]; [destruct (N PM)|].
    unfold the_data, asymmetric_verdict, mldsa_verdict in *. rewrite K1, K2 in *. fold (own_key cf pr chain (w_st w) cts (counting 48)) in *. rewrite PM in RV |- *. cbn [profile_alg] in RV.
    rewrite PM in EK. cbn [profile_alg rust_public] in EK. rewrite EK in KP. cbn [key_parts] in KP. subst a. destruct g as [gr gs|gr gs|gg]; try contradiction RV. cbn [sig_parts] in SP. subst gg sg.
    exists o, b', key, b, cert. split; [exact EK|]. split; [exact CE|]. split; [exact S|reflexivity].
  - pose proof (raw_ends cf R pr chain issuer serial ski RF HB sup c MF parses verify256 verify384 mldsa_key mldsa_verify external_mu (fun _ => MU) w l i p x cts Hr Ul SX F Hx HX HT HL PM) as E.
    subst send. destruct (test_sign_raw _ _ _ _ _ _ _) as [[o cs] b']. destruct E as [S (a & b & cert & key & sg & [CE KP] & EK & -> & ->)].
    rewrite K1 in *. fold (own_key cf pr chain (w_st w) cts (counting 48)) in *. rewrite EK in KP. cbn [key_parts] in KP. subst a.
    exists o, b', key. split; [exact EK|]. split; [exact S|reflexivity].
  - pose proof (consistency_ends cf R pr chain issuer serial ski RF HB sup c MF parses verify256 verify384 mldsa_key mldsa_verify external_mu (fun _ => MU) w l i p x cts Hr Ul SX F Hx HX HT HL PM) as E.
    subst send. destruct (test_raw_consistency _ _ _ _ _ _ _ _) as [[o cs] b']. destruct E as [S (a & b & cert & key1 & key2 & sg1 & sg2 & [CE KP] & EK1 & EK2 & -> & -> & ->)].
    rewrite K1 in *. fold (own_key cf pr chain (w_st w) cts (counting 48)) in *. rewrite EK1 in KP. cbn [key_parts] in KP. subst a.
    exists o, b', (pr_mldsa_public pr key1), key1, key2. split; [exact EK1|]. split; [reflexivity|]. split; [congruence|]. split; [exact S|reflexivity].
Qed.
Print Assumptions C62_mldsa.

(** With elliptic curves the tests of raw messages are skipped. *)
Theorem C62_raw_skipped :
  forall cf R (pr : primitives R) chain issuer serial ski sup c mldsa_key mldsa_verify external_mu w l i,
    reference cf pr (backend_digest (prof cf)) chain issuer serial ski -> reachable cf (w_st w) -> u32 l -> prof cf <> Mldsa87 ->
    let send := sim_send cf R pr chain issuer serial ski in
    test_sign_raw (the_device R) send sup c mldsa_key mldsa_verify (at_ w l i) = (None, [], at_ w l i) /\
    test_raw_consistency (the_device R) send sup c mldsa_key mldsa_verify external_mu (at_ w l i) = (None, [], at_ w l i).
Proof.
  intros cf R pr chain issuer serial ski sup c mldsa_key mldsa_verify external_mu w l i RF Hr Ul NM send.
  apply (raw_skips cf R pr chain issuer serial ski RF sup c mldsa_key mldsa_verify external_mu (fun H => False_ind _ (NM H)) w l i Hr Ul NM).
Qed.
Print Assumptions C62_raw_skipped.

(** With a verifier that accepts what the primitives sign, a parser that accepts the
    certificates, and no unusable secret, TestAsymmetricSigning passes. *)
Theorem C62_passes :
  forall cf R (pr : primitives R) chain issuer serial ski sup c parses verify256 verify384 mldsa_key mldsa_verify external_mu w l i p cts,
    reference cf pr (backend_digest (prof cf)) chain issuer serial ski -> all_bytes chain -> made_for cf c -> reachable cf (w_st w) -> u32 l ->
    ready (w_st w) l p cts -> ~ unusable cf pr -> (forall cert, parses cert = true) ->
    match prof cf with
    | P256Sha256 => forall key d x y r s, pr_point256 pr key = (x, y) -> pr_sign256 pr key d = Some (r, s) ->
        verify256 (big_int (to_buf 32 x)) (big_int (to_buf 32 y)) d (big_int (to_buf 32 r)) (big_int (to_buf 32 s)) = true
    | P384Sha384 => forall key d x y r s, pr_point384 pr key = (x, y) -> pr_sign384 pr key d = Some (r, s) ->
        verify384 (big_int (to_buf 48 x)) (big_int (to_buf 48 y)) d (big_int (to_buf 48 r)) (big_int (to_buf 48 s)) = true
    | Mldsa87 => (forall m x, byte_string 64 (external_mu m x)) /\ forall key m, let q := to_buf (N.to_nat 2592) (pr_mldsa_public pr key) in
        mldsa_key q = true /\ mldsa_verify q m (to_buf (N.to_nat 4627) (pr_mldsa_sign_mu pr key (external_mu m q))) = true
    end ->
    exists o b', test_asymmetric (the_device R) (sim_send cf R pr chain issuer serial ski) sup c parses verify256 verify384 mldsa_key mldsa_verify external_mu (at_ w l i) = (o, [], b') /\
      as_before cf w l i b'.
Proof.
  intros cf R pr chain issuer serial ski sup c parses verify256 verify384 mldsa_key mldsa_verify external_mu w l i p cts RF HB MF Hr Ul RD NU PA V. destruct (prof cf) eqn:PM; rewrite <- PM in RF.
  - destruct (C62_p256 cf R pr chain issuer serial ski sup c parses verify256 verify384 mldsa_key mldsa_verify external_mu w l i p cts RF HB MF Hr Ul PM RD)
      as (o & cs & b' & E & S & [(_ & X)|(key & x & y & r & s & cert & _ & K & G & _ & ->)]); [contradiction|]. rewrite PA, (V _ _ _ _ _ _ K G) in E. exists o, b'. auto.
  - destruct (C62_p384 cf R pr chain issuer serial ski sup c parses verify256 verify384 mldsa_key mldsa_verify external_mu w l i p cts RF HB MF Hr Ul PM RD)
      as (o & cs & b' & E & S & [(_ & X)|(key & x & y & r & s & cert & _ & K & G & _ & ->)]); [contradiction|]. rewrite PA, (V _ _ _ _ _ _ K G) in E. exists o, b'. auto.
  - destruct V as [MU V]. destruct (C62_mldsa cf R pr chain issuer serial ski sup c parses verify256 verify384 mldsa_key mldsa_verify external_mu w l i p cts RF HB MF Hr Ul PM MU RD)
      as ((o & b' & key & b & cert & _ & _ & S & E) & _ & _). destruct (V key (counting 64)) as [V1 V2]. rewrite V1, V2 in E. exists o, b'. auto.
Qed.
Print Assumptions C62_passes.

(** The target the suite is run on: after power-on the simulator is ready for the tests. *)
Theorem C62_target :
  forall cf R (pr : primitives R) chain issuer serial ski sup k seed,
    reference cf pr (backend_digest (prof cf)) chain issuer serial ski -> suits cf k -> gs_auto_init sup = true -> gs_x509 sup = true ->
    exists w c cts, sim_start cf R pr chain issuer serial ski (power_on_args sup) seed = (Ok tt, w) /\ made_for cf c /\ reachable cf (w_st w) /\
      ready (w_st w) SimAutoInitLocality 0 cts.
Proof.
  intros cf R pr chain issuer serial ski sup k seed RF Su A X. pose proof (rf_config _ _ _ _ _ _ _ RF) as Hcf.
  destruct (on_target cf R pr chain issuer serial ski RF sup k seed [] Su) as (w & c & E & MF & _ & Hr & Hs & _ & Y).
  rewrite A in Y. destruct Y as (fl & Y). destruct Y as (_ & _ & _ & _ & H0 & _).
  assert (F : first_slot (names (w_st w) (repeat 0 16) SimAutoInitLocality) 0).
  { split; [eexists; split; [exact H0|repeat split]|]. intros j Hj. lia. }
  assert (LV : live_at (w_st w) 0) by (eexists; split; [exact H0|discriminate]).
  destruct (lineage_ex cf _ (wf_forest _ _ (reachable_wf cf Hcf _ Hr)) _ LV) as (cts & HL).
  exists w, c, cts. split; [exact E|]. split; [exact MF|]. split; [exact Hr|]. split; [exact F|]. split; [eexists; split; [exact H0|split; reflexivity]|]. split; [exact HL|].
  apply Hs. exact X.
Qed.
Print Assumptions C62_target.

(** As the suite runs it on that target: the test is skipped unless the device supports
    AutoInit and X.509, and otherwise it is run and passes, if the verifier accepts what the
    primitives sign, the parser accepts the certificates and no secret is unusable. *)
Theorem C62_run :
  forall cf R (pr : primitives R) chain issuer serial ski sup k seed c parses verify256 verify384 mldsa_key mldsa_verify external_mu,
    reference cf pr (backend_digest (prof cf)) chain issuer serial ski -> all_bytes chain -> suits cf k -> made_for cf c ->
    ~ unusable cf pr -> (forall cert, parses cert = true) ->
    match prof cf with
    | P256Sha256 => forall key d x y r s, pr_point256 pr key = (x, y) -> pr_sign256 pr key d = Some (r, s) ->
        verify256 (big_int (to_buf 32 x)) (big_int (to_buf 32 y)) d (big_int (to_buf 32 r)) (big_int (to_buf 32 s)) = true
    | P384Sha384 => forall key d x y r s, pr_point384 pr key = (x, y) -> pr_sign384 pr key d = Some (r, s) ->
        verify384 (big_int (to_buf 48 x)) (big_int (to_buf 48 y)) d (big_int (to_buf 48 r)) (big_int (to_buf 48 s)) = true
    | Mldsa87 => (forall m x, byte_string 64 (external_mu m x)) /\ forall key m, let q := to_buf (N.to_nat 2592) (pr_mldsa_public pr key) in
        mldsa_key q = true /\ mldsa_verify q m (to_buf (N.to_nat 4627) (pr_mldsa_sign_mu pr key (external_mu m q))) = true
    end ->
    exists w, sim_start cf R pr chain issuer serial ski (power_on_args sup) seed = (Ok tt, w) /\
    forall i, exists o b', run_asymmetric (the_device R) (sim_send cf R pr chain issuer serial ski) sup c parses verify256 verify384 mldsa_key mldsa_verify external_mu
                   (at_ w SimAutoInitLocality i) = (o, b') /\ as_before cf w SimAutoInitLocality i b' /\
      (gs_auto_init sup = true /\ gs_x509 sup = true -> o = Ran []) /\
      (gs_auto_init sup = false \/ gs_x509 sup = false -> o = Skipped /\ b' = at_ w SimAutoInitLocality i).
Proof.
  intros cf R pr chain issuer serial ski sup k seed c parses verify256 verify384 mldsa_key mldsa_verify external_mu RF HB Su MF NU PA V.
  destruct (on_target cf R pr chain issuer serial ski RF sup k seed [] Su) as (w & c0 & E & _ & _ & Hr & _).
  exists w. split; [exact E|]. intros i. unfold run_asymmetric. cbn [forallb].
  destruct (gs_auto_init sup) eqn:A; [|eexists _, _; split; [reflexivity|]; split; [exists w; auto|]; split; [intros [H _]; discriminate H|auto]].
  destruct (gs_x509 sup) eqn:X; [|eexists _, _; split; [reflexivity|]; split; [exists w; auto|]; split; [intros [_ H]; discriminate H|auto]].
  destruct (C62_target cf R pr chain issuer serial ski sup k seed RF Su A X) as (w' & c' & cts & E' & _ & _ & RD). rewrite E' in E. injection E as ->.
  destruct (C62_passes cf R pr chain issuer serial ski sup c parses verify256 verify384 mldsa_key mldsa_verify external_mu w SimAutoInitLocality i 0 cts RF HB MF Hr
    ltac:(vm_compute; reflexivity) RD NU PA V) as (o & b' & T & S).
  cbn [andb]. rewrite T. eexists _, _. split; [reflexivity|]. split; [exact S|]. split; [reflexivity|]. intros [H|H]; discriminate H.
Qed.
Print Assumptions C62_run.

Section Texts.
  Import String.
  Definition octets_of (s : string) : list N := map Ascii.N_of_ascii (list_ascii_of_string s).
  Definition raw_text : string := "This is a test message for ML-DSA raw signing"%string.
  Definition other_text : string := "Another test message for consistency check"%string.
End Texts.
(** What the tests sign, and how Go reads numbers: digests and labels count up from 0, the
    messages are these texts, and the last octet of a number has the weight 1. *)
Theorem C62_data :
  (forall n, length (counting n) = n /\ forall i, (i < n)%nat -> nth_error (counting n) i = Some (N.of_nat i mod 256)) /\
  (big_int [] = 0 /\ forall b x, big_int (b ++ [x]) = 256 * big_int b + x) /\
  raw_message = octets_of raw_text /\
  other_message = octets_of other_text.
Proof.
  split; [|split; [|split; reflexivity]].
  - intros n. unfold counting. rewrite map_length, seq_length. split; [reflexivity|]. intros i Hi. rewrite nth_error_map.
    rewrite (nth_error_nth' (seq 0 n) 0%nat) by (rewrite seq_length; exact Hi). rewrite seq_nth by exact Hi. reflexivity.
  - split; [reflexivity|]. intros b x. unfold big_int. rewrite fold_left_app. reflexivity.
Qed.
Print Assumptions C62_data.

(** ** Cases *)
Definition sign_cf : config := {| max_handles := 4; feat_p256 := false; feat_p384 := false; feat_mldsa := true; prof := Mldsa87; fuel := 5 |}.
Lemma sign_reference : reference sign_cf toy_pr (backend_digest (prof sign_cf)) ref_chain [48; 0] [1; 2] (repeat 7 20).
Proof.
  split.
  - repeat split; try reflexivity; apply Nat.leb_le; reflexivity.
  - left; reflexivity.
  - split.
    + intros b. apply length_to_buf.
    + intros. eexists. split; [reflexivity|]. intros _. apply length_to_buf.
    + intros. exact Logic.I.
    + exists [9]. reflexivity.
  - reflexivity.
  - split; [discriminate|]. repeat split; apply Nat.leb_le; reflexivity.
  - apply Nat.ltb_lt. vm_compute. reflexivity.
Qed.

Definition sign_on cf : world (rust_c N) unit := snd (sim_start cf N toy_pr ref_chain [48; 0] [1; 2] (repeat 7 20) (power_on_args max_target) 3).
Definition sign_client cf kd : go_client := {| cl_kind := kd; cl_codes := codes_v09; cl_profile := own_profile cf;
  cl_major := 0; cl_minor := 13; cl_vendor_id := 0; cl_vendor_sku := 0; cl_max_tci := N.of_nat (max_handles cf); cl_flags := to_flags max_target |}.
(** The toy signature has the secret key as its second half, and both coordinates of the
    public key are that secret key. *)
Definition toy_verify (x y : N) (_ : bytes) (_ s : N) : bool := N.eqb x s && N.eqb x y.
Definition toy_mldsa_verify (q _ g : bytes) : bool := same_handle (firstn 32 q) (firstn 32 g).
Definition toy_mu (m _ : bytes) : bytes := to_buf 64 m.
Notation toy_send cf := (sim_send cf N toy_pr ref_chain [48; 0] [1; 2] (repeat 7 20)).
Definition tried_sign (parses : bool) (verify : N -> N -> bytes -> N -> N -> bool) (sup : go_support) : Suite.outcome :=
  fst (run_asymmetric (the_device N) (toy_send toy_cf) sup (sign_client toy_cf Full256) (fun _ => parses) verify verify (fun _ => true) toy_mldsa_verify toy_mu
    (at_ (sign_on toy_cf) SimAutoInitLocality false)).
Definition tried_raw (mu : bytes -> bytes -> bytes) (known : bool) : list complaint * list complaint * list complaint :=
  let b := at_ (sign_on sign_cf) SimAutoInitLocality false in let cl := sign_client sign_cf FullMldsa in let cs r := match r with (_, cs, _) => cs end in
  (cs (test_asymmetric (the_device N) (toy_send sign_cf) max_target cl (fun _ => true) toy_verify toy_verify (fun _ => known) toy_mldsa_verify mu b),
   cs (test_sign_raw (the_device N) (toy_send sign_cf) max_target cl (fun _ => known) toy_mldsa_verify b),
   cs (test_raw_consistency (the_device N) (toy_send sign_cf) max_target cl (fun _ => known) toy_mldsa_verify mu b)).

Lemma toy_verifies key d x y r s : pr_point256 toy_pr key = (x, y) -> pr_sign256 toy_pr key d = Some (r, s) ->
  toy_verify (big_int (to_buf 32 x)) (big_int (to_buf 32 y)) d (big_int (to_buf 32 r)) (big_int (to_buf 32 s)) = true.
Proof. intros [= <- <-] [= _ <-]. unfold toy_verify. rewrite !N.eqb_refl. reflexivity. Qed.

(** Devices that were just switched on meet the hypotheses, with P-256 and with ML-DSA; the
    toy verifier accepts what the toy primitives sign.  What the test says: it passes; the
    verifier refuses; without X.509 it is skipped.  With ML-DSA and a mu that is not what the
    signature of the message is made from, the two signatures differ. *)
Example C62_case :
  reference toy_cf toy_pr (backend_digest (prof toy_cf)) ref_chain [48; 0] [1; 2] (repeat 7 20) /\ all_bytes ref_chain /\ made_for toy_cf (sign_client toy_cf Full256) /\
  (exists cts, reachable toy_cf (w_st (sign_on toy_cf)) /\ ready (w_st (sign_on toy_cf)) SimAutoInitLocality 0 cts) /\ ~ unusable toy_cf toy_pr /\
  reference sign_cf toy_pr (backend_digest (prof sign_cf)) ref_chain [48; 0] [1; 2] (repeat 7 20) /\ made_for sign_cf (sign_client sign_cf FullMldsa) /\
  (exists cts, reachable sign_cf (w_st (sign_on sign_cf)) /\ ready (w_st (sign_on sign_cf)) SimAutoInitLocality 0 cts) /\ (forall m x, byte_string 64 (toy_mu m x)) /\
  tried_sign true toy_verify max_target = Ran [] /\ tried_sign true (fun _ _ _ _ _ => false) max_target = Ran [Failed 103] /\
  tried_sign true toy_verify (go_rotating true false) = Skipped /\
  tried_raw (fun _ _ => repeat 1 64) true = ([], [], [Failed 132]).
Proof.
  assert (MS : suits sign_cf FullMldsa) by (split; [reflexivity|reflexivity|vm_compute; discriminate]).
  split; [exact toy_reference|]. split; [repeat constructor|]. split; [split; [exact toy_suits|split; reflexivity]|].
  split.
  { destruct (C62_target toy_cf N toy_pr ref_chain [48; 0] [1; 2] (repeat 7 20) max_target Full256 3 toy_reference toy_suits eq_refl eq_refl) as (w & c & cts & E & _ & Hr & RD).
    exists cts. unfold sign_on. rewrite E. auto. }
  split. { intros (salt & ikm & info & key & _ & K). discriminate K. }
  split; [exact sign_reference|]. split; [split; [exact MS|split; reflexivity]|].
  split.
  { destruct (C62_target sign_cf N toy_pr ref_chain [48; 0] [1; 2] (repeat 7 20) max_target FullMldsa 3 sign_reference MS eq_refl eq_refl) as (w & c & cts & E & _ & Hr & RD).
    exists cts. unfold sign_on. rewrite E. auto. }
  split. { intros m x. split; [apply length_to_buf|]. unfold toy_mu, to_buf. apply Forall_forall. intros y I. apply in_map_iff in I as (z & <- & _). apply N.mod_lt. discriminate. }
  repeat (apply conj; [vm_compute; reflexivity|]). vm_compute. reflexivity.
Qed.
