(** SuiteSignProofs.v -- the tests of the suite that verify signatures: proofs. *)
From Verif Require Import Base Errors Types StateOps Env Wire Instance Commands RespBuf Response X509 X509Cert RustCrypto DefaultPlatform Simulator GoClient Suite ClientSpec
  Lib Spec Exec Effects Forest History WireSpec Contract Codec Steps Reach CommandSpecs Responses Execute Walk Measure Reasons Explain Avail X509Spec X509Cmd X509Facts X509ReadOk
  X509Fit X509Fail X509Sane PlatformProofs RustProofs Trace TraceCmds TraceRust RefFaults Props_Commands Props_Keys Props_Avail Props_Reference Props_Size Props_Fail Props_Calls
  Props_Handles Props_Tree Props_Harness SimulatorProofs Props_Simulator ClientProofs ClientChain Props_Client SuiteProofs SuiteCases SuiteMaxProofs SuiteSign.
Local Open Scope N_scope.

Lemma field_at hd x (v rest : bytes) m : length x = 16%nat ->
  slice (concat (hdr_fields hd ++ [x]) ++ v ++ rest) 28 m = firstn m (v ++ rest).
Proof.
  intros L. unfold slice. f_equal.
  assert (L1 : length (concat (hdr_fields hd ++ [x])) = 28%nat).
  { rewrite concat_app. unfold hdr_fields. cbn [concat app]. rewrite !app_length, !length_le_bytes, L. reflexivity. }
  rewrite skipn_app, L1, skipn_all2 by lia. reflexivity.
Qed.
Lemma handle_at hd x (rest : bytes) : length x = 16%nat -> slice (concat (hdr_fields hd ++ [x]) ++ rest) 12 16 = x.
Proof.
  intros L. unfold slice. rewrite concat_app. cbn [concat]. rewrite app_nil_r, <- app_assoc.
  assert (L1 : length (concat (hdr_fields hd)) = 12%nat) by (unfold hdr_fields; cbn [concat]; rewrite !app_length, !length_le_bytes; reflexivity).
  rewrite skipn_app, L1, skipn_all2 by lia. cbn [Nat.sub skipn app]. rewrite firstn_app, L. cbn [Nat.sub]. rewrite firstn_O, app_nil_r. apply firstn_all2. lia.
Qed.
Lemma whole {A} m (l : list A) f : firstn m l = f -> length f = length l -> l = f.
Proof. intros <- L. rewrite firstn_length in L. rewrite firstn_all2; [reflexivity|lia]. Qed.

Section Sign.
  Variable cf : config.
  Variable R : Type.
  Variable pr : primitives R.
  Variables chain issuer serial ski : bytes.
  Notation dig := (backend_digest (prof cf)).
  Hypothesis RF : reference cf pr dig chain issuer serial ski.
  Hypothesis HB : all_bytes chain.
  Notation ops := (sim_ops cf R pr).
  Notation plat := (sim_platform chain issuer serial ski).
  Notation send := (sim_send cf R pr chain issuer serial ski).
  Notation device := (option (world (rust_c R) unit)).
  Variable sup : go_support.
  Variable c : go_client.
  Hypothesis MF : made_for cf c.
  Notation call := (Suite.call device send c).
  Notation k := (cl_kind c).
  Notation alg := (profile_alg (prof cf)).
  Notation zero := (repeat 0 16).
  Notation KEY s cts := (context_key cf (rust_hash pr dig) (rust_pub pr alg) (st_support s) 0 0 chain cts).
  Let Hcf : config_ok cf := rf_config _ _ _ _ _ _ _ RF.
  Let Hchain : chain_fits chain := proj1 (rf_artifacts _ _ _ _ _ _ _ RF).
  Let wfr s (H : reachable cf s) := reachable_wf cf Hcf s H.

  Lemma roll_default loc s s' nh : handle_rolled zero loc s s' nh -> s' = s /\ nh = zero.
  Proof.
    intros (j & x & x' & F & Hx & RO & -> & ->). destruct F as [(y & Hy & _ & _ & E) _]. assert (y = x) by (unfold at_slot in *; congruence). subst y.
    destruct RO as [[_ ->]|(N & _)]; [|destruct (N E)]. split; [apply Steps.put_same; exact Hx|exact E].
  Qed.

  Lemma not_mldsa : (exists salt ikm info key, pr_kdf pr alg salt ikm info = Some key /\ pr_usable pr alg key = false) -> prof cf <> Mldsa87.
  Proof.
    intros (salt & ikm & info & key & K1 & K2) PM. rewrite PM in *. cbn [profile_alg] in *.
    destruct (so_kdf _ _ _ (rf_sound _ _ _ _ _ _ _ RF) salt ikm info) as (k' & E3 & E4). rewrite PM in *. cbn [profile_alg] in *.
    assert (k' = key) by congruence. subst k'. cbn [pr_usable] in K2. rewrite (E4 eq_refl) in K2. discriminate K2.
  Qed.

  (** No handle is drawn for the default context. *)
  Lemma no_draw cmd l w e out w' p x : reachable cf (w_st w) -> command_wf cf cmd -> WireSpec.for_profile cf cmd ->
    runs_to cf R pr chain issuer serial ski cmd l w (Err e) out w' ->
    match cmd with CmdSign _ | CmdCertifyKey _ => True | _ => False end -> presents cmd zero -> first_slot (names (w_st w) zero l) p -> at_slot (w_st w) p x ->
    e <> InternalError HandleGenerationExhausted.
  Proof.
    intros Hr WC WP X SC P F Hx ->. destruct F as [Np Lp]. pose proof Np as (y & Hy & _ & _ & E0). assert (y = x) by (unfold at_slot in *; congruence). subst y.
    destruct (runs_err cf R pr chain issuer serial ski RF cmd l w _ out w' Hr WC WP X) as [[[(Q & _)|Q]|Q] _]; [discriminate Q| |]; destruct cmd; try contradiction SC.
    - destruct Q as (h & m & -> & Kd & Q).
      assert (P' : ck_handle m = zero) by (destruct Kd as [Kd|[Kd|Kd]]; subst h; cbn [presents] in P; congruence). rewrite P' in Q.
      destruct Q as [(Q & _)|(j & z & F2 & Hz & Q)]; [destruct (Q p Np)|].
      pose proof (first_unique _ _ _ F2 (conj Np Lp)) as ->. assert (z = x) by (unfold at_slot in *; congruence). subst z.
      destruct Q as [(Q & _)|[(Q & _)|[(a & b & pp & o & c' & p' & o' & _ & _ & _ & _ & _ & Q)|[(Q & _)|(Q & _)]]]]; try discriminate Q. destruct (Q E0).
    - destruct Q as [(Q & _)|(h & P2 & [(Q & _)|(j & z & F2 & Hz & Q)])]; [discriminate Q| |].
      + assert (h = zero) by (destruct c0; cbn [presents] in *; congruence). subst h. destruct (Q p Np).
      + assert (h = zero) by (destruct c0; cbn [presents] in *; congruence). subst h.
        pose proof (first_unique _ _ _ F2 (conj Np Lp)) as ->. assert (z = x) by (unfold at_slot in *; congruence). subst z.
        destruct Q as [(Q & _)|[[(ce & Q & _)|[(pe & Q & _)|(Q & _)]]|[(ce & Q & _)|[(Q & _)|(Q & _)]]]]; try discriminate Q. destruct (Q E0).
    - destruct c0; cbn [writer_refusal presents] in *; rewrite <- ?P in *;
        destruct Q as [(_ & [[Q _]|(j & cts & F2 & _ & [[(ce & Q & _)|[(pe & Q & _)|(Q & _)]]|[(ce & Q & _)|[(pe & Q & _)|(Q & _)]]])])|
                       (_ & [[Q _]|(j & cts & F2 & _ & [[(ce & Q & _)|[(pe & Q & _)|(Q & _)]]|[(ce & Q & _)|[(pe & Q & _)|(Q & _)]]])])];
        first [discriminate Q | exact (Q p Np)].
    - contradiction Q.
  Qed.

  (** The two parts of a key, as the client hands them out. *)
  Definition key_parts (pk : pubkey) (a b : bytes) : Prop :=
    match pk with
    | PkEcdsa256 x y => a = to_buf 32 x /\ b = to_buf 32 y
    | PkEcdsa384 x y => a = to_buf 48 x /\ b = to_buf 48 y
    | PkMldsa q => a = to_buf (N.to_nat 2592) q
    end.
  Definition sig_parts (g : signature) (r s sg : bytes) : Prop :=
    match g with
    | SigEcdsa256 x y => r = to_buf 32 x /\ s = to_buf 32 y
    | SigEcdsa384 x y => r = to_buf 48 x /\ s = to_buf 48 y
    | SigMldsa q => sg = to_buf (N.to_nat 4627) q
    end.
  Definition is_for (p : profile) (pk : pubkey) : Prop :=
    match p, pk with P256Sha256, PkEcdsa256 _ _ | P384Sha384, PkEcdsa384 _ _ | Mldsa87, PkMldsa _ => True | _, _ => False end.
  Lemma rust_is_for key : is_for (prof cf) (rust_public pr alg key).
  Proof. unfold rust_public. destruct (prof cf); cbn [profile_alg is_for]; [destruct (pr_point256 pr key)|destruct (pr_point384 pr key)|]; exact Logic.I. Qed.

  Definition faulty : Prop := prof cf <> Mldsa87 /\ bad_secret cf R pr.

  Lemma certify_default L w l i p x cts : reachable cf (w_st w) -> u32 l -> byte_string (label_size k) L -> supports (w_st w) X509 ->
    first_slot (names (w_st w) zero l) p -> at_slot (w_st w) p x -> c_x509 x = true -> lineage (w_st w) p cts ->
    exists v w', call (GcCertify zero L 0 0) (at_ w l i) = (Some v, [], at_ w' l i) /\ reachable cf (w_st w') /\ w_st w' = w_st w /\
      ((exists a b cert, v = GoOk (VKey zero a b cert) /\ key_parts (KEY (w_st w) cts L) a b) \/ (exists e, v = GoErr e /\ faulty)).
  Proof.
    intros Hr Ul UL SX F Hx HX HL.
    destruct (call_live cf R pr chain issuer serial ski RF c MF (GcCertify zero L 0 0) w l i Hr Ul) as (r & out & w' & v & Hrun & D & E & Hr' & WC & WP).
    { cbn [usable]. repeat split; try assumption; try apply UL; apply zeros_byte_string. }
    exists v, w'. split; [exact E|]. split; [exact Hr'|].
    assert (EC : exists cc, meant k (GcCertify zero L 0 0) = CmdCertifyKey cc /\ ck_handle (certify_inner cc) = zero /\ ck_format (certify_inner cc) = 0 /\ ck_label (certify_inner cc) = L).
    { clear. generalize k. intros []; cbn [meant]; eexists; (split; [reflexivity|repeat split; reflexivity]). }
    destruct EC as (cc & EC & E1 & E2 & E3). rewrite EC in *.
    assert (EP : certify_profile cc = prof cf) by (destruct cc; cbn in WP |- *; congruence).
    assert (PR : presents (CmdCertifyKey cc) zero) by (destruct cc; cbn [presents certify_inner] in E1 |- *; congruence).
    pose proof Hrun as Hrun0. destruct Hrun as (w1 & X & Eo & Ew). unfold sim_exec in X.
    set (w0 := mkWorld (w_st w) (w_c w) (w_p w) _) in X.
    assert (L0 : length (w_out w0) = response_size cf (CmdCertifyKey cc)) by (rewrite size_wire; apply repeat_length).
    assert (LG : legitimate cf plat (CmdCertifyKey cc) l (w_st w)).
    { cbn [legitimate]. exists zero, p, x. split; [exact PR|]. split; [split; assumption|]. rewrite <- EP.
      destruct cc; cbn [certify_profile certify_inner] in *; left; auto. }
    destruct (C52_available cf R pr dig chain issuer serial ski (CmdCertifyKey cc) l w0 r w1 RF Hr WC WP LG
      ltac:(rewrite L0; apply fixed_response; exact Logic.I) ltac:(rewrite L0; lia) X) as [(m & ->)|(e & -> & RR)].
    - destruct D as (resp & AN & EB & ->).
      assert (RS : exists q hd hx pk0 zz cert, resp = RespCertifyKey q hd hx pk0 zz cert) by (destruct AN as [_ AN]; destruct resp; try contradiction AN; do 6 eexists; reflexivity).
      destruct RS as (q & hd & hx & pk0 & zz & cert & ->). destruct AN as (_ & -> & Bx & Bk & _).
      pose proof X as X'. cbn [exec_command] in X'. apply exec_certify_inv in X' as [[_ N]|(s' & w2 & cr & nh & (j & ctx & _ & _ & Hroll) & K & Fin)]; [destruct (N m); reflexivity|].
      destruct (pubkey_bytes (certify_profile cc) (cr_pubkey cr)) as [pk|]; [|destruct Fin; discriminate]. cbv zeta in Fin. destruct Fin as [(S1 & _ & Ho)|(_ & Q & _)]; [|discriminate].
      rewrite E1 in Hroll. apply roll_default in Hroll as [Es En]. change (w_st w0) with (w_st w) in Es.
      assert (EB' : w_out w1 = concat (hdr_fields hd ++ [hx]) ++ pk0 ++ le_bytes 4 zz ++ cert).
      { rewrite <- Eo, <- EB. unfold response_bytes. cbn [response_fields]. rewrite !concat_app. cbn [concat]. rewrite !app_nil_r, <- !app_assoc. reflexivity. }
      assert (EH : hx = zero).
      { transitivity (slice (w_out w1) 12 16); [rewrite EB'; symmetry; apply handle_at; apply Bx|]. rewrite Ho. unfold certify_hdr_bytes. rewrite <- En. apply slice_first. rewrite En. reflexivity. }
      subst hx. split; [rewrite Ew; cbn [w_st]; congruence|]. left.
      destruct (C16_reference cf R pr alg dig chain issuer serial ski (CmdCertifyKey cc) l w0 m w1 zero p cts Hcf HB Hchain (wfr _ Hr) X PR F HL) as [CK _].
      specialize (CK L ltac:(destruct cc; cbn in E3 |- *; congruence)). change (w_st w0) with (w_st w) in CK.
      assert (LK : length pk0 = (output_start (CmdCertifyKey cc) - 32)%nat).
      { rewrite (proj1 Bk). destruct cc; cbn [certify_profile output_start]; reflexivity || lia. }
      rewrite EB', field_at, firstn_app, LK, Nat.sub_diag, firstn_O, app_nil_r, firstn_all2 in CK by (rewrite ?LK; try apply Bx; lia).
      assert (IF : is_for (prof cf) (KEY (w_st w) cts L)) by apply rust_is_for.
      revert CK IF. generalize (KEY (w_st w) cts L). intros pk1 CK IF. rewrite <- EP in IF, CK. cbn [told].
      destruct (certify_profile cc) eqn:Ecc, pk1 as [a b|a b|a]; try contradiction IF; cbn [key_octets key_parts] in CK |- *; subst pk0; do 3 eexists; (split; [reflexivity|]).
      + rewrite firstn_app, skipn_app, !length_to_buf, Nat.sub_diag, firstn_O, app_nil_r, firstn_all2, skipn_all2 by (rewrite length_to_buf; lia). split; reflexivity.
      + rewrite firstn_app, skipn_app, !length_to_buf, Nat.sub_diag, firstn_O, app_nil_r, firstn_all2, skipn_all2 by (rewrite length_to_buf; lia). split; reflexivity.
      + reflexivity.
    - pose proof (no_draw _ _ _ _ _ _ _ _ Hr WC WP Hrun0 Logic.I PR F Hx) as ND. cbn [understood] in D.
      destruct (C52_atomic cf R pr dig chain issuer serial ski (CmdCertifyKey cc) l w0 e w1 RF Hr WC WP ltac:(rewrite L0; apply fixed_response; exact Logic.I) X) as [SW|(u & Q & _)]; [|discriminate Q].
      split; [rewrite Ew; exact SW|]. right. destruct e; try contradiction RR; cbn [ref_reason] in RR.
      + exfalso. destruct RR as [[-> _]|(_ & Q & _)]; [apply ND; reflexivity|]. destruct cc; exact (Q E2).
      + exfalso. destruct RR as (_ & ? & ? & Q & _). discriminate Q.
      + destruct RR as [(_ & _ & BS)|(_ & [] & _)]. exists (GoStatus (get_error_code (CryptoErr e))). split; [exact D|]. split; [apply not_mldsa; exact BS|exact BS].
  Qed.

  (** A client that was made for the device leaves room for its signatures. *)
  Lemma sign_room sc : WireSpec.for_profile cf (CmdSign sc) -> (fixed_size cf (CmdSign sc) <= response_size cf (CmdSign sc))%nat.
  Proof.
    intros WP. pose proof MF as ([S1 S2 S3] & _ & _). pose proof (max_cert_room cf) as MR. pose proof Hcf as (_ & PE & _).
    rewrite size_wire. unfold profile_enabled in PE. unfold own_profile in S1. unfold tci_size in S2.
    destruct sc; cbn [WireSpec.for_profile] in WP; [| |destruct WP as [WP _]|destruct WP as [WP _]]; rewrite WP in *; cbn [fixed_size wire_size sign_profile].
    - destruct k; cbn [kind_profile] in S1; try discriminate S1; cbn [label_size] in S2; destruct (feat_p384 cf), (feat_mldsa cf); try discriminate S2; lia.
    - destruct k; cbn [kind_profile] in S1; try discriminate S1; destruct (feat_mldsa cf); [lia|]; rewrite PE; lia.
    - rewrite PE. lia.
    - rewrite PE. lia.
  Qed.

  Lemma sign_default q L data w l i p x cts : reachable cf (w_st w) -> u32 l -> usable k q -> (exists sc, meant k q = CmdSign sc) -> presents (meant k q) zero -> signs (meant k q) L data ->
    (forall r, meant k q = CmdSign (SignMldsa87Raw r) -> sr_size r <= N.of_nat (length (sr_raw r))) ->
    first_slot (names (w_st w) zero l) p -> at_slot (w_st w) p x -> c_type x = Normal -> lineage (w_st w) p cts ->
    exists v w', call q (at_ w l i) = (Some v, [], at_ w' l i) /\ reachable cf (w_st w') /\ w_st w' = w_st w /\
      ((exists r s sg g, v = GoOk (VSigned zero r s sg) /\ rust_ver pr alg (KEY (w_st w) cts L) data g /\ sig_parts g r s sg) \/ (exists e, v = GoErr e /\ faulty)).
  Proof.
    intros Hr Ul US (sc & EC) PR SG RAW F Hx HT HL.
    destruct (call_live cf R pr chain issuer serial ski RF c MF q w l i Hr Ul US) as (r & out & w' & v & Hrun & D & E & Hr' & WC & WP).
    exists v, w'. split; [exact E|]. split; [exact Hr'|]. rewrite EC in *.
    assert (EP : sign_profile sc = prof cf) by (destruct sc; cbn [WireSpec.for_profile sign_profile] in WP |- *; [| |destruct WP as [WP _]|destruct WP as [WP _]]; congruence).
    pose proof Hrun as Hrun0. destruct Hrun as (w1 & X & Eo & Ew). unfold sim_exec in X.
    set (w0 := mkWorld (w_st w) (w_c w) (w_p w) _) in X.
    assert (L0 : length (w_out w0) = response_size cf (CmdSign sc)) by (rewrite size_wire; apply repeat_length).
    assert (LG : legitimate cf plat (CmdSign sc) l (w_st w)).
    { cbn [legitimate]. split; [intros r0 ->; apply RAW; reflexivity|]. intros h Hh. exists p, x. split; [|exact HT]. split; [|exact Hx].
      assert (h = zero) by (destruct sc; cbn [presents] in *; congruence). subst h. exact F. }
    destruct (C52_available cf R pr dig chain issuer serial ski (CmdSign sc) l w0 r w1 RF Hr WC WP LG
      ltac:(rewrite L0; apply sign_room; exact WP) ltac:(rewrite L0; lia) X) as [(m & ->)|(e & -> & RR)].
    - destruct D as (resp & AN & EB & ->).
      assert (RS : exists q0 hd hx sg, resp = RespSign q0 hd hx sg) by (destruct AN as [_ AN]; destruct resp; try contradiction AN; do 4 eexists; reflexivity).
      destruct RS as (q0 & hd & hx & sg & ->). destruct AN as (_ & -> & Bx & Bs).
      pose proof X as X'. cbn [exec_command] in X'. apply exec_sign_inv in X' as [[_ N]|(s' & bs & (h & lb & dt & j & ctx & sg0 & sb & nh & w2 & SI & _ & _ & _ & _ & _ & Hroll & Eb) & S1 & Fin)]; [destruct (N m); reflexivity|].
      assert (h = zero).
      { unfold sign_inputs in SI. destruct sc; cbn [presents] in *; repeat match type of SI with context [if ?b then _ else _] => destruct b end; try discriminate SI; injection SI as <- _ _; congruence. }
      subst h. apply roll_default in Hroll as [Es En]. change (w_st w0) with (w_st w) in Es.
      assert (EB' : w_out w1 = concat (hdr_fields hd ++ [hx]) ++ sg).
      { rewrite <- Eo, <- EB. unfold response_bytes. cbn [response_fields]. rewrite !concat_app. cbn [concat]. rewrite !app_nil_r, <- !app_assoc. reflexivity. }
      destruct Fin as [(Lb & Em & Ho)|(_ & Q & _)]; [|discriminate Q].
      assert (EH : hx = zero).
      { transitivity (slice (w_out w1) 12 16); [rewrite EB'; symmetry; apply handle_at; apply Bx|]. rewrite Ho, Eb. unfold sign_resp_bytes. rewrite <- En. apply slice_first. rewrite En. reflexivity. }
      subst hx. split; [rewrite Ew; cbn [w_st]; congruence|]. left.
      destruct (C16_reference cf R pr alg dig chain issuer serial ski (CmdSign sc) l w0 m w1 zero p cts Hcf HB Hchain (wfr _ Hr) X PR F HL) as [_ CS].
      destruct (CS L data SG) as (g & RV & EG). change (w_st w0) with (w_st w) in RV.
      rewrite EB' in EG. rewrite <- (app_nil_r sg), field_at, app_nil_r in EG by apply Bx. apply whole in EG.
      2:{ rewrite (proj1 Bs). rewrite EP. destruct RV as (key & RV & _). destruct (prof cf), data as [d|d|d|d], g; cbn [profile_alg] in RV; try contradiction RV;
            cbn [signature_field]; rewrite app_length, ?length_to_buf; cbn [length]; lia. }
      subst sg. cbn [told]. rewrite EP. pose proof RV as (key & RK & _).
      destruct (prof cf), data as [d|d|d|d], g as [a b|a b|a]; cbn [profile_alg] in RK; try contradiction RK; cbn [signature_field];
        (do 4 eexists; split; [reflexivity|split; [exact RV|]]); cbn [sig_parts];
        rewrite firstn_app, ?skipn_app, !length_to_buf, Nat.sub_diag, firstn_O, app_nil_r, firstn_all2, ?skipn_all2 by (rewrite length_to_buf; lia); repeat split; reflexivity.
    - pose proof (no_draw _ _ _ _ _ _ _ _ Hr WC WP Hrun0 Logic.I PR F Hx) as ND. cbn [understood] in D.
      destruct (C52_atomic cf R pr dig chain issuer serial ski (CmdSign sc) l w0 e w1 RF Hr WC WP ltac:(rewrite L0; apply sign_room; exact WP) X) as [SW|(u & Q & _)]; [|discriminate Q].
      split; [rewrite Ew; exact SW|]. right. destruct e; try contradiction RR; cbn [ref_reason] in RR.
      + exfalso. destruct RR as [[-> _]|(_ & [] & _)]. apply ND; reflexivity.
      + exfalso. destruct RR as (_ & ? & ? & Q & _). discriminate Q.
      + destruct RR as [(_ & _ & BS)|(_ & [] & _)]. exists (GoStatus (get_error_code (CryptoErr e))). split; [exact D|]. split; [apply not_mldsa; exact BS|exact BS].
  Qed.

  Lemma counting_bytes n : byte_string n (counting n).
  Proof.
    unfold byte_string, counting. split; [rewrite map_length, seq_length; reflexivity|]. unfold all_bytes. rewrite Forall_forall. intros y I.
    apply in_map_iff in I as (j & <- & _). apply N.mod_lt. discriminate.
  Qed.

  Variable parses : bytes -> bool.
  Variables verify256 verify384 : N -> N -> bytes -> N -> N -> bool.
  Variable mldsa_key : bytes -> bool.
  Variable mldsa_verify : bytes -> bytes -> bytes -> bool.
  Variable external_mu : bytes -> bytes -> bytes.
  Hypothesis MU : prof cf = Mldsa87 -> forall m y, byte_string 64 (external_mu m y).
  Notation asymmetric := (test_asymmetric device send sup c parses verify256 verify384 mldsa_key mldsa_verify external_mu).
  Notation sign_raw := (test_sign_raw device send sup c mldsa_key mldsa_verify).
  Notation consistency := (test_raw_consistency device send sup c mldsa_key mldsa_verify external_mu).
  Notation LBL := (counting (label_size k)).
  Notation MSG := (counting (message_size k)).

  Definition ecdsa_verdict (ok parsed : bool) : list complaint := if parsed then (if ok then [] else [Failed 103]) else [Stopped 80].
  Definition mldsa_verdict (ok known : bool) (l1 l2 : N) : list complaint := if known then (if ok then [] else [Failed l2]) else [Stopped l1].
  Definition the_data (a : bytes) : sign_data :=
    match prof cf with
    | P256Sha256 => SDDigest (DSha256 MSG)
    | P384Sha384 => SDDigest (DSha384 MSG)
    | Mldsa87 => SDMu (external_mu MSG a)
    end.
  Definition asymmetric_verdict (a b cert r s sg : bytes) : list complaint :=
    match prof cf with
    | P256Sha256 => ecdsa_verdict (verify256 (big_int a) (big_int b) MSG (big_int r) (big_int s)) (parses cert)
    | P384Sha384 => ecdsa_verdict (verify384 (big_int a) (big_int b) MSG (big_int r) (big_int s)) (parses cert)
    | Mldsa87 => mldsa_verdict (mldsa_verify a MSG sg) (mldsa_key a) 69 73
    end.

  Lemma own_five : N.eqb (own_profile cf) 5 = match prof cf with Mldsa87 => true | _ => false end.
  Proof. unfold own_profile. destruct (prof cf); reflexivity. Qed.
  Lemma kind_of : match prof cf with
    | P256Sha256 => (k = Full256 \/ k = Min256) /\ label_size k = 32%nat /\ message_size k = 32%nat
    | P384Sha384 => (k = Full384 \/ k = Min384) /\ label_size k = 48%nat /\ message_size k = 48%nat
    | Mldsa87 => k = FullMldsa /\ label_size k = 48%nat /\ message_size k = 64%nat end.
  Proof.
    clear - MF. pose proof (su_profile _ _ (proj1 MF)) as H. unfold own_profile in H. destruct (prof cf), k; cbn [kind_profile] in H; try discriminate H; repeat split; auto.
  Qed.
  Section From.
    Variables (w : world (rust_c R) unit) (l : N) (i : bool) (p : nat) (x : context) (cts : list context).
    Hypothesis Hr : reachable cf (w_st w).
    Hypothesis Ul : u32 l.
    Hypothesis SX : supports (w_st w) X509.
    Hypothesis F : first_slot (names (w_st w) zero l) p.
    Hypothesis Hx : at_slot (w_st w) p x.
    Hypothesis HX : c_x509 x = true.
    Hypothesis HT : c_type x = Normal.
    Hypothesis HL : lineage (w_st w) p cts.
    Notation PK := (KEY (w_st w) cts LBL).

    Definition certified (a b cert : bytes) : Prop :=
      (exists w1, call (GcCertify zero LBL 0 0) (at_ w l i) = (Some (GoOk (VKey zero a b cert)), [], at_ w1 l i)) /\ key_parts PK a b.
    Definition same_device (b' : bench device) : Prop := exists w', b' = at_ w' l i /\ reachable cf (w_st w') /\ w_st w' = w_st w.

    Lemma certify_first : exists v w', call (GcCertify zero LBL 0 0) (at_ w l i) = (Some v, [], at_ w' l i) /\ reachable cf (w_st w') /\ w_st w' = w_st w /\
      ((exists a b cert, v = GoOk (VKey zero a b cert) /\ certified a b cert) \/ (exists e, v = GoErr e /\ faulty)).
    Proof.
      destruct (certify_default LBL w l i p x cts Hr Ul (counting_bytes _) SX F Hx HX HL) as (v & w' & E & Hr' & Es & [(a & b & cert & -> & KP)|(e & -> & FA)]).
      - do 2 eexists. split; [exact E|]. split; [exact Hr'|]. split; [exact Es|]. left. exists a, b, cert. split; [reflexivity|]. split; [exists w'; exact E|exact KP].
      - do 2 eexists. split; [exact E|]. split; [exact Hr'|]. split; [exact Es|]. right. exists e. auto.
    Qed.
    Lemma sign_next q data w1 : reachable cf (w_st w1) -> w_st w1 = w_st w -> usable k q -> (exists sc, meant k q = CmdSign sc) -> presents (meant k q) zero -> signs (meant k q) LBL data ->
      (forall r, meant k q = CmdSign (SignMldsa87Raw r) -> sr_size r <= N.of_nat (length (sr_raw r))) ->
      exists v w', call q (at_ w1 l i) = (Some v, [], at_ w' l i) /\ reachable cf (w_st w') /\ w_st w' = w_st w /\
        ((exists r s sg g, v = GoOk (VSigned zero r s sg) /\ rust_ver pr alg PK data g /\ sig_parts g r s sg) \/ (exists e, v = GoErr e /\ faulty)).
    Proof.
      intros H1 Es U EC PR SG RAW. rewrite <- Es in F, Hx, HL.
      destruct (sign_default q LBL data w1 l i p x cts H1 Ul U EC PR SG RAW F Hx HT HL) as (v & w' & E & Hr' & E2 & X).
      rewrite Es in *. exists v, w'. auto.
    Qed.

    Lemma asymmetric_ends :
      match asymmetric (at_ w l i) with (_, cs, b') => same_device b' /\
        ((faulty /\ (cs = [Stopped 48] \/ cs = [Stopped 59])) \/
         exists a b cert r s sg g, certified a b cert /\ rust_ver pr alg PK (the_data a) g /\ sig_parts g r s sg /\ cs = asymmetric_verdict a b cert r s sg)
      end.
    Proof.
      unfold test_asymmetric, initial_handle. rewrite (then_step _ _ _ _ _ (eq_refl : done device DefaultContextHandle (at_ w l i) = _)).
      rewrite (then_step _ _ _ _ _ (transport_call cf R pr chain issuer serial ski RF c 26 w l i Hr Ul)).
      rewrite (own_digest cf c MF), (own_data cf c MF), own_five. change DefaultContextHandle with zero.
      destruct certify_first as (v & w1 & E & Hr1 & Es & [(a & b & cert & -> & CE)|(e & -> & FA)]); cycle 1.
      { unfold andthen at 1, must_certify. rewrite (then_step _ _ _ _ _ E). cbn [stopped]. split; [exists w1; auto|]. left. auto. }
      assert (E1 : must_certify device send c (GcCertify zero LBL 0 0) 48 (at_ w l i) = (Some (zero, a, b, cert), [], at_ w1 l i)).
      { unfold must_certify. rewrite (then_step _ _ _ _ _ E). reflexivity. }
      rewrite (then_step _ _ _ _ _ E1). cbv beta iota zeta.
      set (tbs := if match prof cf with Mldsa87 => true | _ => false end then external_mu MSG a else MSG).
      pose proof kind_of as KO.
      destruct (sign_next (GcSign zero LBL 0 tbs) (the_data a) w1 Hr1 Es) as (v2 & w2 & E2 & Hr2 & Es2 & X).
      { cbn [usable]. split; [apply zeros_byte_string|]. split; [apply counting_bytes|]. split; [reflexivity|]. split; [|reflexivity]. unfold tbs.
        destruct (prof cf) eqn:EM; [apply counting_bytes|apply counting_bytes|]. destruct KO as (_ & _ & ->). apply MU. reflexivity. }
      { destruct k; eexists; reflexivity. }
      { destruct k; reflexivity. }
      { unfold tbs, the_data. destruct (prof cf); [destruct KO as ([KK|KK] & _)|destruct KO as ([KK|KK] & _)|destruct KO as (KK & _)]; rewrite KK; split; reflexivity. }
      { intros r0. destruct k; discriminate. }
      destruct X as [(r & s & sg & g & -> & RV & SP)|(e & -> & FA)]; cycle 1.
      { unfold andthen at 1, must_sign. rewrite (then_step _ _ _ _ _ E2). cbn [stopped]. split; [exists w2; auto|]. left. auto. }
      assert (E3 : must_sign device send c (GcSign zero LBL 0 tbs) 59 (at_ w1 l i) = (Some (r, s, sg), [], at_ w2 l i)).
      { unfold must_sign. rewrite (then_step _ _ _ _ _ E2). reflexivity. }
      rewrite (then_step _ _ _ _ _ E3). cbv beta iota.
      match goal with |- match ?m with _ => _ end => assert (EQ : exists o, m = (o, asymmetric_verdict a b cert r s sg, at_ w2 l i)) end; cycle 1.
      { destruct EQ as (o & ->). split; [exists w2; auto|]. right. exists a, b, cert, r, s, sg, g. auto. }
      clear E3 E2. revert RV KO. unfold tbs, asymmetric_verdict, ecdsa_verdict, mldsa_verdict, the_data. destruct (prof cf); intros RV (_ & K1 & _); rewrite ?K1; unfold must, check, andthen, done, stopped.
      - destruct (parses cert); [destruct (verify256 _ _ _ _ _)|]; eexists; reflexivity.
      - destruct (parses cert); [destruct (verify384 _ _ _ _ _)|]; eexists; reflexivity.
      - assert (RL : right_length sg = true).
        { destruct RV as (key & RV & _). cbn [profile_alg] in RV. destruct g; try contradiction RV. cbn [sig_parts] in SP. unfold right_length. rewrite SP, length_to_buf. reflexivity. }
        rewrite RL. destruct (mldsa_key a); [destruct (mldsa_verify _ _ _)|]; eexists; reflexivity.
    Qed.

    Lemma raw_skips : prof cf <> Mldsa87 -> sign_raw (at_ w l i) = (None, [], at_ w l i) /\ consistency (at_ w l i) = (None, [], at_ w l i).
    Proof.
      intros NM. unfold test_sign_raw, test_raw_consistency.
      rewrite (then_step _ _ _ _ _ (transport_call cf R pr chain issuer serial ski RF c 18 w l i Hr Ul)), (then_step _ _ _ _ _ (transport_call cf R pr chain issuer serial ski RF c 75 w l i Hr Ul)).
      rewrite own_five. destruct (prof cf); [split; reflexivity|split; reflexivity|destruct NM; reflexivity].
    Qed.

    Hypothesis PM : prof cf = Mldsa87.
    Lemma not_faulty : ~ faulty. Proof. intros [H _]. exact (H PM). Qed.
    Lemma is_mldsa : k = FullMldsa. Proof. pose proof kind_of as H. rewrite PM in H. apply H. Qed.
    Lemma raw_next raw w1 line : reachable cf (w_st w1) -> w_st w1 = w_st w -> all_bytes raw -> N.of_nat (length raw) <= 1024 ->
      exists r s sg key w2, must_sign device send c (GcSignRaw zero LBL raw) line (at_ w1 l i) = (Some (r, s, sg), [], at_ w2 l i) /\ reachable cf (w_st w2) /\ w_st w2 = w_st w /\
        PK = PkMldsa (pr_mldsa_public pr key) /\ sg = to_buf (N.to_nat 4627) (pr_mldsa_sign pr key raw).
    Proof.
      intros H1 Es Br Lr. pose proof is_mldsa as KK.
      destruct (sign_next (GcSignRaw zero LBL raw) (SDRaw raw) w1 H1 Es) as (v & w2 & E & Hr2 & Es2 & X).
      { cbn [usable]. split; [exact KK|]. split; [apply zeros_byte_string|]. split; [apply counting_bytes|]. split; assumption. }
      { eexists. reflexivity. }
      { reflexivity. }
      { split; [reflexivity|]. cbn [sr_size sr_raw]. rewrite Nat2N.id, firstn_app, Nat.sub_diag, firstn_O, app_nil_r, firstn_all. reflexivity. }
      { intros r0 Q. cbn [meant] in Q. injection Q as <-. cbn [sr_size sr_raw]. rewrite app_length. lia. }
      destruct X as [(r & s & sg & g & -> & (key & RV & EK) & SP)|(e & -> & FA)]; [|destruct (not_faulty FA)].
      rewrite PM in RV. cbn [profile_alg] in RV. destruct g; try contradiction RV. cbn [sig_parts] in SP. subst sg. exists r, s. do 3 eexists.
      split; [unfold must_sign; rewrite (then_step _ _ _ _ _ E); reflexivity|]. split; [exact Hr2|]. split; [exact Es2|]. split; [rewrite EK, PM; reflexivity|rewrite RV; reflexivity].
    Qed.
    Lemma mu_next m a w1 line : reachable cf (w_st w1) -> w_st w1 = w_st w ->
      exists r s sg key w2, must_sign device send c (GcSign zero LBL 0 (external_mu m a)) line (at_ w1 l i) = (Some (r, s, sg), [], at_ w2 l i) /\ reachable cf (w_st w2) /\ w_st w2 = w_st w /\
        PK = PkMldsa (pr_mldsa_public pr key) /\ sg = to_buf (N.to_nat 4627) (pr_mldsa_sign_mu pr key (external_mu m a)).
    Proof.
      intros H1 Es. pose proof is_mldsa as KK.
      destruct (sign_next (GcSign zero LBL 0 (external_mu m a)) (SDMu (external_mu m a)) w1 H1 Es) as (v & w2 & E & Hr2 & Es2 & X).
      { cbn [usable]. split; [apply zeros_byte_string|]. split; [apply counting_bytes|]. split; [reflexivity|]. split; [|reflexivity]. rewrite KK. apply MU. exact PM. }
      { destruct k; eexists; reflexivity. }
      { destruct k; reflexivity. }
      { rewrite KK. split; reflexivity. }
      { intros r0. destruct k; discriminate. }
      destruct X as [(r & s & sg & g & -> & (key & RV & EK) & SP)|(e & -> & FA)]; [|destruct (not_faulty FA)].
      rewrite PM in RV. cbn [profile_alg] in RV. destruct g; try contradiction RV. cbn [sig_parts] in SP. subst sg. exists r, s. do 3 eexists.
      split; [unfold must_sign; rewrite (then_step _ _ _ _ _ E); reflexivity|]. split; [exact Hr2|]. split; [exact Es2|]. split; [rewrite EK, PM; reflexivity|rewrite RV; reflexivity].
    Qed.

    Lemma raw_bytes : all_bytes raw_message /\ all_bytes other_message.
    Proof. unfold all_bytes. rewrite !Forall_forall. split; intros y I; cbv [raw_message other_message In] in I; repeat (destruct I as [<-|I]; [reflexivity|]); destruct I. Qed.

    Lemma raw_ends :
      match sign_raw (at_ w l i) with (_, cs, b') => same_device b' /\
        exists a b cert key sg, certified a b cert /\ PK = PkMldsa (pr_mldsa_public pr key) /\ sg = to_buf (N.to_nat 4627) (pr_mldsa_sign pr key raw_message) /\
          cs = mldsa_verdict (mldsa_verify a raw_message sg) (mldsa_key a) 60 65
      end.
    Proof.
      unfold test_sign_raw. rewrite (then_step _ _ _ _ _ (transport_call cf R pr chain issuer serial ski RF c 18 w l i Hr Ul)). replace (N.eqb (own_profile cf) 5) with true by (rewrite own_five, PM; reflexivity). cbn [negb].
      unfold initial_handle. rewrite (then_step _ _ _ _ _ (eq_refl : done device DefaultContextHandle (at_ w l i) = _)).
      rewrite (own_digest cf c MF). change DefaultContextHandle with zero.
      destruct certify_first as (v & w1 & E & Hr1 & Es & [(a & b & cert & -> & CE)|(e & -> & FA)]); [|destruct (not_faulty FA)].
      assert (E1 : must_certify device send c (GcCertify zero LBL 0 0) 40 (at_ w l i) = (Some (zero, a, b, cert), [], at_ w1 l i)).
      { unfold must_certify. rewrite (then_step _ _ _ _ _ E). reflexivity. }
      rewrite (then_step _ _ _ _ _ E1). cbv beta iota zeta.
      destruct (raw_next raw_message w1 50 Hr1 Es (proj1 raw_bytes) ltac:(discriminate)) as (r & s & sg & key & w2 & E2 & Hr2 & Es2 & EK & ES).
      rewrite (then_step _ _ _ _ _ E2). cbv beta iota.
      assert (RL : right_length sg = true) by (unfold right_length; rewrite ES, length_to_buf; reflexivity).
      match goal with |- match ?m with _ => _ end => assert (EQ : exists o, m = (o, mldsa_verdict (mldsa_verify a raw_message sg) (mldsa_key a) 60 65, at_ w2 l i)) end.
      { rewrite RL. unfold must, check, andthen, done, stopped, mldsa_verdict. destruct (mldsa_key a); [destruct (mldsa_verify _ _ _)|]; eexists; reflexivity. }
      destruct EQ as (o & ->). split; [exists w2; auto|]. exists a, b, cert, key, sg. auto.
    Qed.

    Lemma consistency_ends :
      match consistency (at_ w l i) with (_, cs, b') => same_device b' /\
        exists a b cert key1 key2 sg1 sg2, certified a b cert /\ PK = PkMldsa (pr_mldsa_public pr key1) /\ PK = PkMldsa (pr_mldsa_public pr key2) /\
          sg1 = to_buf (N.to_nat 4627) (pr_mldsa_sign pr key1 other_message) /\ sg2 = to_buf (N.to_nat 4627) (pr_mldsa_sign_mu pr key2 (external_mu other_message a)) /\
          cs = if mldsa_key a
               then (if mldsa_verify a other_message sg1 then [] else [Failed 124]) ++ (if mldsa_verify a other_message sg2 then [] else [Failed 128]) ++
                    (if same_handle sg1 sg2 then [] else [Failed 132])
               else [Stopped 120]
      end.
    Proof.
      unfold test_raw_consistency. rewrite (then_step _ _ _ _ _ (transport_call cf R pr chain issuer serial ski RF c 75 w l i Hr Ul)). replace (N.eqb (own_profile cf) 5) with true by (rewrite own_five, PM; reflexivity). cbn [negb].
      unfold initial_handle. rewrite (then_step _ _ _ _ _ (eq_refl : done device DefaultContextHandle (at_ w l i) = _)).
      rewrite (own_digest cf c MF). change DefaultContextHandle with zero.
      destruct certify_first as (v & w1 & E & Hr1 & Es & [(a & b & cert & -> & CE)|(e & -> & FA)]); [|destruct (not_faulty FA)].
      assert (E1 : must_certify device send c (GcCertify zero LBL 0 0) 97 (at_ w l i) = (Some (zero, a, b, cert), [], at_ w1 l i)).
      { unfold must_certify. rewrite (then_step _ _ _ _ _ E). reflexivity. }
      rewrite (then_step _ _ _ _ _ E1). cbv beta iota zeta.
      destruct (raw_next other_message w1 107 Hr1 Es (proj2 raw_bytes) ltac:(discriminate)) as (r & s & sg & key & w2 & E2 & Hr2 & Es2 & EK & ES).
      rewrite (then_step _ _ _ _ _ E2). cbv beta iota.
      destruct (mu_next other_message a w2 114 Hr2 Es2) as (r' & s' & sg' & key' & w3 & E3 & Hr3 & Es3 & EK' & ES').
      rewrite (then_step _ _ _ _ _ E3). cbv beta iota.
      match goal with |- match ?m with _ => _ end => assert (EQ : exists o, m = (o, if mldsa_key a
               then (if mldsa_verify a other_message sg then [] else [Failed 124]) ++ (if mldsa_verify a other_message sg' then [] else [Failed 128]) ++
                    (if same_handle sg sg' then [] else [Failed 132])
               else [Stopped 120], at_ w3 l i)) end.
      { unfold must, check, andthen, done, stopped. destruct (mldsa_key a); [destruct (mldsa_verify _ _ _), (mldsa_verify _ _ _), (same_handle _ _)|]; eexists; reflexivity. }
      destruct EQ as (o & ->). split; [exists w3; auto|]. exists a, b, cert, key, key', sg, sg'. repeat (split; [assumption|]). reflexivity.
    Qed.
  End From.
End Sign.
