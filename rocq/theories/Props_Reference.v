(** Props_Reference.v -- the reference platform and crypto back end: reading the
    certificate chain (C32), exported CDIs (C33), and what other theorems ask of an
    environment. *)
From Verif Require Import Base Errors Types StateOps Env Wire Instance Commands X509 X509Cert RespBuf Response DefaultPlatform RustCrypto Lib Der DerProofs X509Run X509Spec X509Enc
  Spec Exec Effects Forest History WireSpec Codec Steps Reach Toy Contract Responses Execute Walk Measure X509Out X509Proper X509Gen X509Read X509ReadOk
  X509Made X509Total X509Sane X509Cmd X509Facts KeyProofs ToyX509 Ledger CryptoUse ExportProofs PlatformProofs RustProofs Props_Commands Props_Measure Props_X509 Props_Keys.
Open Scope N_scope.
Open Scope dpe_scope.

(** ** C32: chunked reading reassembles the certificate chain *)

(** GetCertificateChain with the reference platform: more than 2048 bytes are refused; an
    offset at or behind the end is an error; otherwise the response holds exactly the
    bytes asked for, as far as the chain has them.  Nothing else changes. *)
Theorem C32_requests :
  forall cf C (co : crypto_ops C) cg chain issuer serial ski off size loc w r w',
    all_bytes chain -> chain_fits chain ->
    exec_command cf C unit co (default_platform chain issuer serial ski) cg (CmdGetCertificateChain off size) loc w = (r, w') ->
    w_st w' = w_st w /\ w_c w' = w_c w /\
    if 2048 <? size then r = Err InvalidArgument /\ w_out w' = w_out w
    else if N.of_nat (length chain) <=? off then r = Err (PlatformErr PECertificateChain) /\ w_out w' = w_out w
    else if (length (w_out w) <? N.to_nat 2064)%nat then r = Err InvalidResponseBuf /\ w_out w' = w_out w
    else r = Ok 2064 /\ success_header cf (w_out w') /\
         chunk_of (w_out w') = firstn (N.to_nat size) (skipn (N.to_nat off) chain) /\
         length (w_out w') = length (w_out w) /\ skipn (N.to_nat 2064) (w_out w') = skipn (N.to_nat 2064) (w_out w).
Proof.
  intros cf C co cg chain issuer serial ski off size loc w r w' HB HL H.
  destruct (N.ltb_spec 2048 size) as [L1|L1].
  { rewrite request_large in H by exact L1. apply pair_equal_spec in H as [<- <-]. auto. }
  destruct (N.leb_spec (N.of_nat (length chain)) off) as [L2|L2].
  { rewrite request_past in H by assumption. apply pair_equal_spec in H as [<- <-]. auto. }
  change (N.to_nat 2064) with 2064%nat. exact (request_within cf C co cg chain issuer serial ski HL off size loc w r w' HB L1 L2 H).
Qed.
Print Assumptions C32_requests.

(** A client that asks for the chain piece by piece with the sizes [sizes], each time from
    where it is, and has collected [acc].  Anything may happen between two requests. *)
Inductive collected (cf : config) {C} (co : crypto_ops C) (po : platform_ops unit) cg : list N -> bytes -> Prop :=
| col_start : collected cf co po cg [] []
| col_piece sizes acc size loc w n w' :
    collected cf co po cg sizes acc ->
    exec_command cf C unit co po cg (CmdGetCertificateChain (N.of_nat (length acc)) size) loc w = (Ok n, w') ->
    collected cf co po cg (sizes ++ [size]) (acc ++ chunk_of (w_out w')).
Definition total (l : list N) : N := fold_right N.add 0 l.

(** What is collected is the chain as far as asked for.  The next request fails if and
    only if the whole chain was collected, otherwise it yields at least one byte. *)
Theorem C32_reassembles :
  forall cf C (co : crypto_ops C) cg chain issuer serial ski sizes acc,
    all_bytes chain -> chain_fits chain ->
    let po := default_platform chain issuer serial ski in
    collected cf co po cg sizes acc ->
    acc = firstn (N.to_nat (total sizes)) chain /\
    forall size loc w r w', 1 <= size <= 2048 -> (N.to_nat 2064 <= length (w_out w))%nat ->
      exec_command cf C unit co po cg (CmdGetCertificateChain (N.of_nat (length acc)) size) loc w = (r, w') ->
      (acc = chain /\ r = Err (PlatformErr PECertificateChain)) \/
      (acc <> chain /\ r = Ok 2064 /\ chunk_of (w_out w') <> [] /\
       collected cf co po cg (sizes ++ [size]) (acc ++ chunk_of (w_out w'))).
Proof.
  intros cf C co cg chain issuer serial ski sizes acc HB HL po H.
  assert (T : forall l a, total (l ++ [a]) = total l + a) by (unfold total; induction l as [|x l IH]; intros a; cbn [app fold_right]; [lia|rewrite IH; lia]).
  assert (E : acc = firstn (N.to_nat (total sizes)) chain).
  { induction H as [|sizes acc size loc w n w' H IH E]; [reflexivity|].
    apply C32_requests in E as (_ & _ & E); [|assumption..].
    destruct (2048 <? size); [destruct E; discriminate|]. destruct (N.leb_spec (N.of_nat (length chain)) (N.of_nat (length acc))) as [L|L]; [destruct E; discriminate|].
    destruct (length (w_out w) <? N.to_nat 2064)%nat; [destruct E; discriminate|]. destruct E as (_ & _ & -> & _ & _).
    rewrite T, N2Nat.inj_add, Nat2N.id. rewrite IH, firstn_length in L.
    assert (Lt : length acc = N.to_nat (total sizes)) by (rewrite IH, firstn_length; lia).
    rewrite Lt. rewrite IH at 1. generalize (N.to_nat (total sizes)) as a. generalize (N.to_nat size) as b. clear.
    intros b a. revert chain. induction a as [|a IH]; intros [|x chain]; cbn [firstn skipn app Nat.add]; rewrite ?firstn_nil; try reflexivity.
    rewrite IH. reflexivity. }
  split; [exact E|]. intros size loc w r w' Hs Ho X. pose proof X as X0.
  apply C32_requests in X as (_ & _ & X); [|assumption..].
  destruct (N.ltb_spec 2048 size) as [L1|L1]; [lia|].
  destruct (N.leb_spec (N.of_nat (length chain)) (N.of_nat (length acc))) as [L|L].
  - left. split; [|apply X]. rewrite E in L. rewrite firstn_length in L. rewrite E. apply firstn_all2. lia.
  - right. destruct (Nat.ltb_spec (length (w_out w)) (N.to_nat 2064)) as [L3|L3]; [lia|]. destruct X as (-> & _ & Ec & _ & _).
    split; [intros ->; lia|]. split; [reflexivity|]. split; [|eapply col_piece; eauto].
    rewrite Ec, Nat2N.id. intros Z. apply (f_equal (@length N)) in Z. rewrite firstn_length, skipn_length in Z. cbn [length] in Z. lia.
Qed.
Print Assumptions C32_reassembles.
(** The u32 addition of the platform does not overflow for requests of up to 2048 bytes,
    and no slice is out of range. *)
Theorem C32_no_overflow :
  forall chain off size out, chain_fits chain -> size <= 2048 -> length out = N.to_nat 2048 -> default_chain chain off size out <> None.
Proof.
  intros chain off size out HL Hs Ho. destruct (N.le_gt_cases (N.of_nat (length chain)) off) as [L|L].
  - rewrite default_chain_end by assumption. discriminate.
  - rewrite default_chain_more by assumption. discriminate.
Qed.
Print Assumptions C32_no_overflow.

(** ** C33: exported CDIs in the reference back end *)

(** Commands change the back end only by calling it. *)
Theorem C33_commands_call :
  forall cf C P (co : crypto_ops C) (po : platform_ops P) cmd loc w r w',
    exec_command cf C P co po (x509_gen cf C P co po) cmd loc w = (r, w') -> uses co (w_c w) (w_c w').
Proof. intros cf C P co po cmd loc w r w' H. exact (command_uses cf co po _ (x509_using cf co po) cmd loc _ _ _ H). Qed.
Print Assumptions C33_commands_call.

(** At most one CDI is ever exported: after a success every further request fails -- with
    DuplicateCdi if it is for the same CDI -- and changes nothing. *)
Theorem C33_backend_bounded :
  forall R (pr : primitives R) sig dig d l c h c1 c2 d2 l2 r c3,
    let ops := rust_ops R pr sig dig in
    co_derive_exported_cdi ops d l c = (inl h, c1) -> uses ops c1 c2 ->
    co_derive_exported_cdi ops d2 l2 c2 = (r, c3) ->
    c3 = c2 /\ exists e, r = inr e /\
      (e = CEExportedCdiHandleDuplicateCdi \/ e = CEExportedCdiHandleLimitExceeded \/ e = CEHash 0) /\
      (d2 = d -> l2 = l -> e = CEExportedCdiHandleDuplicateCdi).
Proof.
  intros R pr sig dig d l c h c1 c2 d2 l2 r c3 ops H U E. destruct (issue pr sig dig _ _ _ _ _ H) as (cdi & H1 & _ & Hs & _).
  pose proof (full_stays pr sig dig _ _ _ Hs U) as Hs2. unfold ops in E. rewrite (refuse pr sig dig _ _ _ _ Hs2) in E.
  apply pair_equal_spec in E as [<- <-]. split; [reflexivity|]. eexists. split; [reflexivity|]. cbn [fst]. split.
  - unfold hkdf_derive_cdi. destruct (match sig with AlgEcdsa256 => _ | AlgEcdsa384 => _ | AlgMldsa87 => _ end); [|auto].
    destruct (bytes_eqb _ _); auto.
  - intros -> ->. rewrite H1, bytes_eqb_refl. reflexivity.
Qed.
Print Assumptions C33_backend_bounded.

(** The handle given out stands for its CDI for good, whatever is called in between: the
    key pair for it is the key pair of the CDI for the same digest and label; every other
    handle is refused without a change. *)
Theorem C33_backend_handle :
  forall R (pr : primitives R) sig dig d l c h c1 c2 h' k x r c3,
    let ops := rust_ops R pr sig dig in
    co_derive_exported_cdi ops d l c = (inl h, c1) -> uses ops c1 c2 ->
    co_derive_key_pair_exported ops h' k x c2 = (r, c3) ->
    if list_eq_dec N.eq_dec h' h then
      exists c4 c5, co_derive_cdi ops d l c2 = (inl tt, c4) /\ co_derive_key_pair ops k x c4 = (r, c5) /\
        fst (co_signer_public_key ops c3) = fst (co_signer_public_key ops c5) /\
        forall m, fst (co_signer_sign ops m c3) = fst (co_signer_sign ops m c5)
    else r = inr CEInvalidExportedCdiHandle /\ c3 = c2.
Proof.
  intros R pr sig dig d l c h c1 c2 h' k x r c3 ops H U E. destruct (issue pr sig dig _ _ _ _ _ H) as (cdi & H1 & _ & Hs & _).
  pose proof (full_stays pr sig dig _ _ _ Hs U) as Hs2. unfold ops in *. destruct (list_eq_dec N.eq_dec h' h) as [->|N].
  - rewrite (resolve pr sig dig _ _ _ _ _ Hs2) in E. cbn [co_derive_cdi co_derive_key_pair co_signer_public_key co_signer_sign rust_ops] in *.
    unfold rc_derive_cdi, rc_derive_key_pair. rewrite H1. eexists. destruct (hkdf_get_priv_key R pr sig cdi k x) as [key|e] eqn:Hk;
      apply pair_equal_spec in E as [<- <-]; eexists; (split; [reflexivity|]); cbn [rc_cdi]; rewrite Hk; (split; [reflexivity|]); split; reflexivity.
  - rewrite (unknown pr sig dig _ _ _ _ _ _ Hs2 N) in E. apply pair_equal_spec in E as [<- <-]. auto.
Qed.
Print Assumptions C33_backend_handle.
(** A handle that resolves was given out before. *)
Theorem C33_backend_origin :
  forall R (pr : primitives R) sig dig c h k x c',
    let ops := rust_ops R pr sig dig in
    operating pr sig dig c -> co_derive_key_pair_exported ops h k x c = (inl tt, c') ->
    exists d l c0 c1, operating pr sig dig c0 /\ co_derive_exported_cdi ops d l c0 = (inl h, c1) /\ uses ops c1 c.
Proof.
  intros R pr sig dig c h k x c' ops O H. unfold ops in *. destruct (operating_issued pr sig dig c O) as [K|(cdi & h0 & K & I)].
  - rewrite (unknown_all pr sig dig _ _ _ _ K) in H. discriminate.
  - destruct (list_eq_dec N.eq_dec h h0) as [->|N]; [exact I|]. rewrite (unknown pr sig dig _ _ _ _ _ _ K N) in H. discriminate.
Qed.
Print Assumptions C33_backend_origin.

(** A hash is finished once: whatever the outcome, until the next start neither data nor a
    second result is accepted, and the refusals change nothing.  A start forgets
    whatever was fed before, in any state. *)
Theorem C33_backend_hash :
  forall R (pr : primitives R) sig dig c r c1,
    let ops := rust_ops R pr sig dig in
    co_hash_finish ops c = (r, c1) ->
    (forall b, co_hash_update ops b c1 = (inr (CEHash 0), c1)) /\
    co_hash_finish ops c1 = (inr (CEHash 1), c1) /\
    (forall c2 c3, co_hash_initialize ops c1 = (inl tt, c2) -> co_hash_initialize ops c = (inl tt, c3) -> c2 = c3) /\
    forall b c2 c3, co_hash_initialize ops c1 = (inl tt, c2) -> co_hash_update ops b c2 = (inl tt, c3) ->
      fst (co_hash_finish ops c3) =
        match dig with
        | AlgSha256 => if Nat.eqb (length (pr_sha256 pr b)) 32 then inl (DSha256 (pr_sha256 pr b)) else inr CESize
        | AlgSha384 => if Nat.eqb (length (pr_sha384 pr b)) 48 then inl (DSha384 (pr_sha384 pr b)) else inr CESize
        end.
Proof.
  intros R pr sig dig c r c1 ops H. unfold ops in *.
  cbn [co_hash_finish co_hash_update co_hash_initialize rust_ops] in *. unfold rc_finish in H.
  assert (E : rc_hasher c1 = None /\ rc_rng c1 = rc_rng c /\ rc_slots c1 = rc_slots c /\ rc_cdi c1 = rc_cdi c /\ rc_key c1 = rc_key c).
  { destruct (rc_hasher c) eqn:D; apply (f_equal snd) in H; cbn [snd] in H; subst c1; cbn; auto. }
  destruct E as (E & E1 & E2 & E3 & E4). unfold rc_update, rc_finish, rc_initialize. rewrite E, E1, E2, E3, E4.
  split; [reflexivity|]. split; [reflexivity|]. split; [congruence|].
  intros b c2 c3 A B. assert (A1 : c2 = mkRust (rc_rng c) (rc_slots c) (Some []) (rc_cdi c) (rc_key c)) by congruence. subst c2.
  cbn [rc_hasher app] in B. injection B as <-. cbn [rc_hasher fst app]. reflexivity.
Qed.
Print Assumptions C33_backend_hash.

(** ** What certificates say with the reference platform (C43) *)

(** Every certificate made with the reference platform and any back end: issuer and
    authority key identifier are those of the test certificate -- which has a key identifier of
    at least 20 bytes, or nothing is certified --, it is valid from 2023-02-27 to the end
    of 9999, and the one for an exported CDI carries the UEID of seventeen bytes 10. *)
Theorem C43_reference :
  forall cf C (co : crypto_ops C) chain issuer serial ski cmd loc w n w' h i cts,
    let po := default_platform chain issuer serial ski in
    all_bytes issuer -> all_bytes ski ->
    config_ok cf -> keys_fit cf co -> issuer_der po -> wf cf (w_st w) -> command_wf cf cmd ->
    exec_command cf C unit co po (x509_gen cf C unit co po) cmd loc w = (Ok n, w') ->
    asks_certificate cmd -> presents cmd h ->
    first_slot (names (w_st w) h loc) i -> lineage (w_st w) i cts -> even_svns cts ->
    let b := output cmd n (w_out w') in
    (length issuer <= 128)%nat /\ (20 <= length ski)%nat /\
    exists f r, certificate_facts (prof cf) b = Some f /\ read_issue (prof cf) b = Some r /\
      is_issuer r = issuer /\ is_authority r = firstn 20 ski /\
      is_validity r = ([50; 48; 50; 51; 48; 50; 50; 55; 48; 48; 48; 48; 48; 48; 90],
                       [57; 57; 57; 57; 49; 50; 51; 49; 50; 51; 53; 57; 53; 57; 90]) /\
      fa_ueid f = match cmd with
                  | CmdCertifyKey (CertifyP256 c) | CmdCertifyKey (CertifyP384 c) | CmdCertifyKey (CertifyMldsa87 c) => ck_label c
                  | _ => [10; 10; 10; 10; 10; 10; 10; 10; 10; 10; 10; 10; 10; 10; 10; 10; 10]
                  end.
Proof.
  intros cf C co chain issuer serial ski cmd loc w n w' h i cts po BI BS Hcf HK HI W HC H HA HP HF HL HE b.
  destruct (C43_certificates cf C unit co po cmd loc w n w' h i cts Hcf HK HI W HC H HA HP HF HL HE)
    as (f & db & db2 & idn & v & aki & E1 & (_ & _ & U & _) & _ & _ & ((p & m & o & p' & G1 & ->) & (q & v0 & q' & G2 & ->) & (s & u & o2 & s' & G3 & ->)) & E2).
  cbn [po po_issuer_name po_cert_validity po_issuer_key_identifier default_platform] in G1, G2, G3.
  unfold default_issuer_name in G1. rewrite repeat_length in G1. destruct (Nat.ltb_spec 128 (length issuer)) as [L|L]; [discriminate|].
  unfold default_issuer_key_identifier, max_key_identifier_size in G3. destruct (Nat.ltb_spec (length ski) 20) as [K|K]; [discriminate|].
  split; [exact L|]. split; [exact K|]. exists f. eexists. split; [exact E1|]. split; [exact E2|]. cbn [is_issuer is_authority is_validity].
  assert (Em : m = N.of_nat (length issuer)) by congruence. assert (Eo : o = issuer ++ skipn (length issuer) (repeat 0 128)) by congruence.
  assert (Eo2 : o2 = firstn 20 ski) by congruence. assert (Ev : v0 = {| cv_not_before := default_not_before; cv_not_after := default_not_after |}) by congruence.
  rewrite Em, Eo, Eo2, Ev. rewrite Nat2N.id.
  split.
  { assert (LB : length (issuer ++ skipn (length issuer) (repeat 0 128)) = 128%nat) by (rewrite app_length, skipn_length, repeat_length; lia).
    rewrite to_buf_id; [|exact LB|apply all_bytes_app; split; [exact BI|apply all_bytes_skipn, Forall_forall; intros x Hx; apply repeat_spec in Hx; subst x; reflexivity]].
    rewrite firstn_app, firstn_all, Nat.sub_diag, firstn_O, app_nil_r. reflexivity. }
  split.
  { apply to_buf_id; [rewrite firstn_length; lia|apply all_bytes_firstn; exact BS]. }
  split; [reflexivity|].
  destruct cmd as [|fl|d|c|c|hh fl|hh|x y|x]; try destruct HA; cbn [ueid_for] in U; [|destruct c; exact U].
  destruct U as (p0 & u0 & p1 & U1 & U2 & ->). cbn [po po_ueid default_platform] in U1.
  assert (Eu : u0 = {| ueid_buf := default_ueid ++ repeat 0 31; ueid_size := 17 |}) by congruence. rewrite Eu. reflexivity.
Qed.
Print Assumptions C43_reference.

(** The label of exported CDIs is "Exported CDI"; key label and context are "Exported ECC"
    or "Exported ML-DSA". *)
Definition export_cdi_label : bytes := [69; 120; 112; 111; 114; 116; 101; 100; 32; 67; 68; 73].
Definition export_key_label (p : profile) : bytes :=
  [69; 120; 112; 111; 114; 116; 101; 100; 32] ++ match p with Mldsa87 => [77; 76; 45; 68; 83; 65] | _ => [69; 67; 67] end.

(** DeriveContext with EXPORT_CDI on the reference back end: the certificate is for the
    key derived from the measurements of the addressed context, and the handle in the
    response stands for this key for good, whatever is called afterwards. *)
Theorem C33_exported_key :
  forall cf R (pr : primitives R) sig dig P (po : platform_ops P) vid sku chain d loc w n w' i cts,
    let ops := rust_ops R pr sig dig in let cmd := CmdDeriveContext d in
    config_ok cf -> sig = profile_alg (prof cf) -> issuer_der po -> steady po vid sku chain ->
    wf cf (w_st w) -> command_wf cf cmd -> u32 loc ->
    exec_command cf (rust_c R) P ops po (x509_gen cf (rust_c R) P ops po) cmd loc w = (Ok n, w') ->
    asks_certificate cmd ->
    first_slot (names (w_st w) (dc_handle d) loc) i -> lineage (w_st w) i cts -> even_svns cts ->
    let pk := rust_pub pr sig (rust_hash pr dig (measured_bytes cf (st_support (w_st w)) vid sku chain cts))
                       export_cdi_label (export_key_label (prof cf)) (export_key_label (prof cf)) in
    let h := slice (w_out w') 44 32 in
    (exists f, certificate_facts (prof cf) (output cmd n (w_out w')) = Some f /\ fa_key f = key_octets (prof cf) pk) /\
    forall c, uses ops (w_c w') c ->
      (exists c', co_derive_key_pair_exported ops h (export_key_label (prof cf)) (export_key_label (prof cf)) c = (inl tt, c') /\
         co_signer_public_key ops c' = (inl pk, c')) /\
      (forall d2 l2, exists e, co_derive_exported_cdi ops d2 l2 c = (inr e, c)).
Proof.
  intros cf R pr sig dig P po vid sku chain d loc w n w' i cts ops cmd Hcf Hsig HI HS W Wc Wl H [B23 B24] HF HL HE pk h.
  pose (e := {| e_C := rust_c R; e_P := P; e_crypto := ops; e_platform := po; e_cert := x509_gen cf (rust_c R) P ops po |}).
  assert (W' : wf cf (w_st w')).
  { apply (executes_wf cf Hcf e cmd loc (w_st w) (Ok n)); [exact W|exact Wc|exact Wl|].
    destruct w as [s c p o], w' as [s' c' p' o']. exists c, p, o, c', p', o'. exact H. }
  destruct (export_flow cf ops po d loc w n w' W W' B23 B24 H) as (u & ueid & cr & w0 & w1 & Hu & Hs & Hu0 & Hc & Hcc & Hn & Ht & Hh).
  assert (Hub : all_bytes ueid) by (eapply ueid_bytes; exact Hu).
  assert (HF0 : first_slot (names (w_st w0) (dc_handle d) loc) i) by (rewrite Hs; exact HF).
  destruct (create_flow cf ops po _ _ _ _ _ i Hc HF0) as (dg & wm & h0 & c3 & Hd & HX & Hex & U3).
  assert (ED : dg = rust_hash pr dig (measured_bytes cf (st_support (w_st w)) vid sku chain cts)).
  { pose proof (digest_is cf Hcf ops po _ _ _ vid sku chain (rust_faithful pr sig dig) HS i cts w0 dg wm) as Q. rewrite Hs in Q. exact (Q W HL Hd). }
  cbn [export_args ca_cdi_label ca_key_label ca_context] in HX. subst dg.
  assert (EL : exported_label (prof cf) = export_key_label (prof cf)) by (destruct (prof cf); reflexivity).
  rewrite EL in HX.
  destruct (exported_for_good pr sig dig _ _ _ _ _ _ _ _ c3 HX ltac:(constructor)) as (Epk & Eh & _).
  fold pk in Epk.
  assert (Ehh : h = h0) by (unfold h; rewrite Hh, Hex, !Eh; reflexivity).
  split.
  - pose proof (fun X => certificate_says cf Hcf ops po _ _ _ _ _ _ i cts Hc eq_refl X Hub (rust_keys_fit pr sig dig cf Hsig) HI HF0) as Q.
    rewrite Hs in Q. destruct (Q W HL HE) as (dd & d2 & idn & v & aki & _ & _ & _ & E1 & _).
    eexists. split.
    + rewrite (output_tail cmd n (w_out w') (w_out w1) (cr_size cr)); [exact E1|exact Hn|exact Ht].
    + cbn [output_facts fa_key]. rewrite Epk. reflexivity.
  - intros c Uc. assert (U : uses ops c3 c) by (eapply uses_trans; [exact U3|rewrite Hcc; exact Uc]).
    destruct (exported_for_good pr sig dig _ _ _ _ _ _ _ _ c HX U) as (_ & _ & c' & E1 & E2).
    split.
    + exists c'. rewrite Ehh. rewrite Epk in E2. auto.
    + intros d2 l2. destruct HX as (c1 & c2 & X1 & X2 & X3).
      assert (U1 : uses ops c1 c).
      { eapply uses_trans; [eapply uses_one, call_key_exported; exact X2|]. eapply uses_trans; [eapply uses_one, call_public; exact X3|exact U]. }
      destruct (co_derive_exported_cdi ops d2 l2 c) as [r cx] eqn:Ex.
      destruct (C33_backend_bounded R pr sig dig _ _ _ _ _ _ _ _ _ _ X1 U1 Ex) as (-> & e1 & -> & _). exists e1. reflexivity.
Qed.
Print Assumptions C33_exported_key.

(** ** The reference environment meets what the theorems ask for *)

(** The key of a context, as for C16: in the reference environment CertifyKey certifies
    the key derived from the measurements of the addressed context with the label of the
    command, and Sign signs with the same key. *)
Theorem C16_reference :
  forall cf R (pr : primitives R) sig dig chain issuer serial ski cmd loc w n w' h i cts,
    let ops := rust_ops R pr sig dig in let po := default_platform chain issuer serial ski in
    let key := context_key cf (rust_hash pr dig) (rust_pub pr sig) (st_support (w_st w)) 0 0 chain cts in
    config_ok cf -> all_bytes chain -> chain_fits chain -> wf cf (w_st w) ->
    exec_command cf (rust_c R) unit ops po (x509_gen cf (rust_c R) unit ops po) cmd loc w = (Ok n, w') ->
    presents cmd h -> first_slot (names (w_st w) h loc) i -> lineage (w_st w) i cts ->
    (forall label, certifies cmd label -> slice (w_out w') 28 (output_start cmd - 32) = key_octets (prof cf) (key label)) /\
    (forall label data, signs cmd label data ->
       exists g, rust_ver pr sig (key label) data g /\ slice (w_out w') 28 (N.to_nat n - 28) = signature_field g).
Proof.
  intros cf R pr sig dig chain issuer serial ski cmd loc w n w' h i cts ops po key Hcf HB HL W H HP HF HLn.
  pose proof (default_steady chain issuer serial ski HL HB) as HS. pose proof (rust_faithful pr sig dig) as Fb. split.
  - intros label HC. exact (C16_certify_key cf _ _ ops po _ _ _ _ _ _ cmd label loc w n w' h i cts Hcf Fb HS W H HC HP HF HLn).
  - intros label data HC.
    destruct (C16_sign cf _ _ ops po _ _ _ _ _ _ _ cmd label data loc w n w' h i cts Hcf Fb HS W H HC HP HF HLn) as (g & V & E & _). eauto.
Qed.
Print Assumptions C16_reference.

(** The reference environment never crashes, for a chain that the model's loop bound
    covers. *)
Theorem C21_reference :
  forall cf R (pr : primitives R) sig dig chain issuer serial ski loc b s c out r w',
    let ops := rust_ops R pr sig dig in let po := default_platform chain issuer serial ski in
    config_ok cf -> chain_fits chain -> (length chain < 2048 * (fuel cf - 1))%nat ->
    reachable cf s -> all_bytes b ->
    execute_serialized_command cf (rust_c R) unit ops po (x509_gen cf (rust_c R) unit ops po) loc b (mkWorld s c tt out) = (r, w') ->
    forall k, r <> Crash k.
Proof.
  intros cf R pr sig dig chain issuer serial ski loc b s c out r w' ops po Hcf HL Hf Hr Hb H.
  apply (C21_x509_bytes cf (rust_c R) unit ops po loc b s c tt out r w' Hcf Hr); [|exact Hb|exact H].
  intros q. destruct (fuel cf) as [|m]; [cbn in Hf; lia|]. apply default_stops_from; [exact HL|apply repeat_length|]. cbn [Nat.sub N.to_nat] in *. lia.
Qed.
Print Assumptions C21_reference.

(** ** Non-vacuity: a reference environment *)

Definition toy_pr : primitives N :=
  {| pr_fill := fun n r => (repeat ((r + 1) mod 256) n, r + 1);
     pr_sha256 := toy_hash; pr_sha384 := fun b => to_buf 48 (toy_hash b);
     pr_hkdf256 := fun s k i n => Some (to_buf n (toy_hash (s ++ k ++ i)));
     pr_hkdf384 := fun s k i n => Some (to_buf n (toy_hash (s ++ k ++ i)));
     pr_valid256 := fun _ => true; pr_valid384 := fun _ => true;
     pr_point256 := fun k => (k, k); pr_point384 := fun k => (k, k);
     pr_sign256 := fun k d => Some (toy_hash (k ++ d), k); pr_sign384 := fun k d => Some (toy_hash (k ++ d), k);
     pr_mldsa_public := fun k => k; pr_mldsa_sign_mu := fun k d => k ++ d; pr_mldsa_sign := fun k d => k ++ d;
     pr_alias256 := Some [9]; pr_alias384 := Some [9]; pr_alias_mldsa := Some [9] |}.
Definition ref_ops := rust_ops N toy_pr AlgEcdsa256 AlgSha256.
Definition ref_chain : bytes := [48; 3; 2; 1; 5].
Definition ref_platform := default_platform ref_chain [48; 0] [1; 2] (repeat 7 20).
Definition ref_exec (cmd : command) (loc : N) : world (rust_c N) unit -> result N * world (rust_c N) unit :=
  exec_command toy_cf (rust_c N) unit ref_ops ref_platform (x509_gen toy_cf (rust_c N) unit ref_ops ref_platform) cmd loc.
Definition ref_env : env :=
  {| e_C := rust_c N; e_P := unit; e_crypto := ref_ops; e_platform := ref_platform;
     e_cert := x509_gen toy_cf (rust_c N) unit ref_ops ref_platform |}.
Definition ref_run (l : list (command * N)) : world (rust_c N) unit :=
  toy_run ref_env l (mkWorld (state_new toy_cf all_features 0) (rust_new N 3) tt (repeat 0 (N.to_nat 2100))).
Lemma ref_reachable l : Forall (fun cl => command_wf toy_cf (fst cl) /\ u32 (snd cl)) l -> reachable toy_cf (w_st (ref_run l)).
Proof.
  intros F. unfold reachable, ref_run. apply (toy_run_history any_env any_command ref_env I l []); auto.
  - apply hi_new. reflexivity.
  - intros; exact I.
Qed.
Lemma ref_ok n w cmd loc : fst (ref_exec cmd loc w) = Ok n -> ref_exec cmd loc w = (Ok n, snd (ref_exec cmd loc w)).
Proof. intros H. rewrite <- H. apply surjective_pairing. Qed.

(** Reading the chain with requests of 2 bytes. *)
Example C32_case :
  let w := ref_run [(init_default, 0)] in
  let get o := chunk_of (w_out (snd (ref_exec (CmdGetCertificateChain o 2) 0 w))) in
  all_bytes ref_chain /\ chain_fits ref_chain /\ get 0 = [48; 3] /\ get 2 = [2; 1] /\ get 4 = [5] /\
  fst (ref_exec (CmdGetCertificateChain 5 2) 0 w) = Err (PlatformErr PECertificateChain) /\
  fst (ref_exec (CmdGetCertificateChain 0 2049) 0 w) = Err InvalidArgument.
Proof.
  split; [repeat constructor|]. split; [discriminate|]. repeat split; vm_compute; reflexivity.
Qed.

(** A CDI is exported with the parent retained (also a case of C43_reference); another export fails, under any label. *)
Definition ref_export : derive_cmd :=
  {| dc_handle := H0; dc_data := data 7; dc_flags := 2 ^ 23 + 2 ^ 22 + 2 ^ 29; dc_tci_type := 5; dc_target_locality := 0; dc_svn := 0 |}.
Lemma ref_chain_ok s i c : at_slot s i c -> live c -> c_parent c = ROOT -> lineage s i [c].
Proof. intros A L P. exists [i]. split; [eapply path_root; eauto|]. constructor; [exact A|constructor]. Qed.
Example C33_case :
  let w := ref_run [(init_default, 0)] in let cmd := CmdDeriveContext ref_export in
  let w' := snd (ref_exec cmd 0 w) in
  operating toy_pr AlgEcdsa256 AlgSha256 (w_c w) /\ config_ok toy_cf /\ AlgEcdsa256 = profile_alg (prof toy_cf) /\
  issuer_der ref_platform /\ steady ref_platform 0 0 ref_chain /\ wf toy_cf (w_st w) /\ command_wf toy_cf cmd /\
  ref_exec cmd 0 w = (Ok 684, w') /\ asks_certificate cmd /\
  first_slot (names (w_st w) H0 0) 0 /\ (exists c, lineage (w_st w) 0 [c]) /\
  slice (w_out w') 44 32 = repeat 4 32 /\
  fst (ref_exec cmd 0 w') = Err (CryptoErr CEExportedCdiHandleDuplicateCdi) /\
  fst (co_derive_key_pair_exported ref_ops (repeat 4 32) [1] [2] (w_c w')) = inl tt /\
  fst (co_derive_key_pair_exported ref_ops (repeat 5 32) [1] [2] (w_c w')) = inr CEInvalidExportedCdiHandle /\
  fst (co_derive_exported_cdi ref_ops (DSha256 [1]) [2] (w_c w')) = inr CEExportedCdiHandleLimitExceeded.
Proof.
  intros w cmd w'. split.
  { exists 3. unfold w, ref_run, toy_run. cbn [fold_left fst snd].
    destruct (exec_command _ _ _ _ _ _ _ _ _) as [r w1] eqn:E. apply C33_commands_call in E. exact E. }
  split; [exact toy_cf_ok|]. split; [reflexivity|]. split.
  { apply (default_issuer_der ref_chain [48; 0] [1; 2] (repeat 7 20) (Cons 48 [])); [vm_compute; repeat split; discriminate|reflexivity|repeat constructor]. }
  split; [apply default_steady; [discriminate|repeat constructor]|].
  split; [apply (reachable_wf toy_cf toy_cf_ok), ref_reachable; toy_wf|].
  split; [vm_compute; repeat split; auto 20; repeat constructor|].
  split; [apply ref_ok; vm_compute; reflexivity|]. split; [split; reflexivity|].
  split; [split; [eexists; vm_compute; repeat split|intros j Hj; lia]|].
  split; [eexists; apply ref_chain_ok; [vm_compute; reflexivity|vm_compute; discriminate|reflexivity]|].
  repeat split; vm_compute; reflexivity.
Qed.
