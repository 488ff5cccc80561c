(** Props_Fail.v -- C42 with the modelled certificate writer: why a certificate or request
    could not be made, and when it certainly can. *)
From Verif Require Import Base Errors Types StateOps Env Wire Instance Commands RespBuf Response X509 X509Cert Lib Spec Exec History WireSpec Reach Contract Walk
  Measure Reasons Explain Avail Der X509Spec X509Made X509Gen X509Cmd X509Facts X509Fit X509Fail RustCrypto DefaultPlatform RustProofs Toy ToyX509 Props_Avail
  Props_Reference Props_Size.
Open Scope N_scope.

(** ** Why the writer fails *)

(** Any call of the writer, in any reachable state, with any buffer: the handle is not the
    caller's, a call to the back end or platform failed, or the space left is smaller than
    the longest output for this chain of contexts.  None of the internal errors the code
    provides for (SerialNumberSliceOob, KeyIdHashTooSmall, X509InvalidWidth, EmptyTciNodes,
    TciNodeCountExceeded, MissingExportedCdiHandle, CsrSizeOverflow, IssuerNameTooLong)
    ever comes up. *)
Theorem C42_writer :
  forall cf C P (co : crypto_ops C) (po : platform_ops P) issuer_max names_max k a off w e w',
    config_ok cf -> keys_fit cf co -> signatures_fit cf co -> names_room po issuer_max names_max ->
    issuer_max <= 128 -> names_max <= 100 -> reachable cf (w_st w) -> len (ca_ueid a) <= 48 ->
    create_cert cf C P co po k a off w = (Err e, w') ->
    cert_refusal cf co po issuer_max names_max k (ca_handle a) (ca_locality a) (w_st w) (len (ca_ueid a))
      (len (w_out w) - N.of_nat off) e.
Proof.
  intros cf C P co po A B k a off w e w' Hcf Hk Hs Hn HA HB R HU H.
  exact (create_cert_reasons cf Hcf co po Hk A B Hn HA Hs HB k a off w e w' (reachable_wf cf Hcf _ R) HU H).
Qed.
Print Assumptions C42_writer.

(** Conversely, with a back end that names a signature algorithm of the other kind (ECDSA or
    ML-DSA) than its keys nothing is ever certified: after a successful request it named one
    of the kind of the profile. *)
Lemma made_kind cf C P (co : crypto_ops C) (po : platform_ops P) k a off w r w' :
  create_cert cf C P co po k a off w = (Ok r, w') ->
  exists c, co_signature_algorithm co c = AlgMldsa87 <-> exists b, cr_pubkey r = PkMldsa b.
Proof.
  intros H. apply made_inv in H as (x & wd & n & wr & HD & _ & _ & _ & _ & _ & Epk & _). rewrite Epk.
  destruct HD as (w1 & w2 & w3 & w4 & w5 & w6 & w7 & w8 & v & sid & _ & _ & _ & E & _). exists (w_c w2).
  unfold get_subject_name in E. apply bind_inv in E as [(s & u & E & _)|[(e & _ & X)|(e & _ & X)]]; [|discriminate..].
  unfold get_pubkey_serial, bind in E. destruct (Nat.ltb _ _); [discriminate|].
  destruct (co_signature_algorithm co (w_c w2)), (dr_pubkey x); cbn [alg_matches negb] in E; try discriminate;
    (split; [intros Q; (discriminate Q || (eexists; reflexivity))|intros [? Q]; (discriminate Q || reflexivity)]).
Qed.
Theorem C42_kind_of_key :
  forall cf C P (co : crypto_ops C) (po : platform_ops P) cmd loc w n w',
    config_ok cf -> keys_fit cf co -> reachable cf (w_st w) -> command_wf cf cmd ->
    asks_certificate cmd \/ asks_request cmd ->
    exec_command cf C P co po (x509_gen cf C P co po) cmd loc w = (Ok n, w') ->
    exists c, co_signature_algorithm co c = AlgMldsa87 <-> prof cf = Mldsa87.
Proof.
  intros cf C P co po cmd loc w n w' Hcf Hk R HW HA H. pose proof (reachable_wf cf Hcf _ R) as W.
  assert (HP : exists h, presents cmd h).
  { destruct cmd; try (destruct HA as [HA|HA]; destruct HA); cbn [presents]; eauto. destruct c; eauto. }
  destruct HP as [h HP].
  assert (HM : exists k a off r w0 w1, create_cert cf C P co po k a off w0 = (Ok r, w1)).
  { destruct HA as [HA|HA].
    - destruct (certificate_command cf Hcf co po _ _ _ _ _ _ W HW H HA HP) as (k & a & r & w0 & w1 & X & _). eauto 8.
    - destruct (request_command cf co po _ _ _ _ _ _ W HW H HA HP) as (a & r & w1 & X & _). eauto 8. }
  destruct HM as (k & a & off & r & w0 & w1 & X). destruct (made_kind _ _ _ _ _ _ _ _ _ _ _ X) as [c Q]. exists c. rewrite Q.
  apply made_inv in X as (x & wd & m & wr & HD & _ & _ & _ & _ & _ & Epk & _). rewrite Epk in *.
  pose proof (drafted_key cf co po _ _ _ _ _ Hk HD) as K. destruct (dr_pubkey x), (prof cf); cbn [key_of] in K; try contradiction;
    (split; [intros [? Y]; (discriminate Y || reflexivity)|intros Y; (discriminate Y || (eexists; reflexivity))]).
Qed.
Print Assumptions C42_kind_of_key.

(** Every refusal of every command: either one that would also come up with a writer that
    never fails ([obliging]), or the output could not be made. *)
Theorem C42_certificate_reasons :
  forall cf C P (co : crypto_ops C) (po : platform_ops P) issuer_max names_max cmd loc w e w',
    config_ok cf -> keys_fit cf co -> signatures_fit cf co -> names_room po issuer_max names_max ->
    issuer_max <= 128 -> names_max <= 100 -> reachable cf (w_st w) -> command_wf cf cmd ->
    exec_command cf C P co po (x509_gen cf C P co po) cmd loc w = (Err e, w') ->
    refusal cf co po (obliging cf) cmd loc (w_st w) (w_st w') (length (w_out w)) e \/
    writer_refusal cf co po issuer_max names_max cmd loc (w_st w) (length (w_out w)) e.
Proof.
  intros cf C P co po A B cmd loc w e w' Hcf Hk Hs Hn HA HB R HW H.
  exact (command_reasons cf Hcf co po Hk Hs A B Hn HA HB cmd loc w e w' (reachable_wf cf Hcf _ R) HW H).
Qed.
Print Assumptions C42_certificate_reasons.

(** The same for the reference platform and back end: nothing is assumed but the length
    of the issuer name. *)
Theorem C42_reference :
  forall cf R (pr : primitives R) dig chain issuer serial ski cmd loc w e w',
    let co := rust_ops R pr (profile_alg (prof cf)) dig in
    let po := default_platform chain issuer serial ski in
    config_ok cf -> (length issuer <= 128)%nat -> reachable cf (w_st w) -> command_wf cf cmd ->
    exec_command cf (rust_c R) unit co po (x509_gen cf (rust_c R) unit co po) cmd loc w = (Err e, w') ->
    refusal cf co po (obliging cf) cmd loc (w_st w) (w_st w') (length (w_out w)) e \/
    writer_refusal cf co po (N.of_nat (length issuer)) 0 cmd loc (w_st w) (length (w_out w)) e.
Proof.
  intros cf R pr dig chain issuer serial ski cmd loc w e w' co po Hcf HI Hr HW H.
  eapply (C42_certificate_reasons cf _ _ co po); try eassumption;
    [exact (rust_keys_fit pr (profile_alg (prof cf)) dig cf eq_refl)|apply reference_signatures|apply reference_names|lia|lia].
Qed.
Print Assumptions C42_reference.

(** ** When it certainly can *)

(** In a healthy environment a legitimate request succeeds in a buffer of the size of its
    response type, certificates and requests included; a request needs one slot of the
    chain to spare (C45). *)
Theorem C42_certificates_available :
  forall cf C P (co : crypto_ops C) (po : platform_ops P) issuer_max names_max cmd loc w r w',
    config_ok cf -> sizes_chosen cf -> keys_fit cf co -> signatures_fit cf co -> names_room po issuer_max names_max ->
    issuer_max + names_max <= 97 -> healthy cf co po ->
    reachable cf (w_st w) -> command_wf cf cmd -> legitimate cf po cmd loc (w_st w) ->
    (fixed_size cf cmd <= length (w_out w))%nat -> (response_size cf cmd <= length (w_out w))%nat ->
    (asks_request cmd -> forall h i cts, presents cmd h -> first_slot (names (w_st w) h loc) i -> lineage (w_st w) i cts ->
       (length cts < max_handles cf)%nat) ->
    exec_command cf C P co po (x509_gen cf C P co po) cmd loc w = (r, w') ->
    (exists n, r = Ok n) \/
    (needs_handle cmd loc (w_st w) /\ exists e, r = Err e /\ no_handle co (w_st w') e).
Proof.
  intros cf C P co po A B cmd loc w r w' Hcf Hz Hk Hs Hn HAB HH R HW HL R1 R2 HQ H.
  eapply (x509_available cf Hcf co po Hk Hs A B Hn); eauto; try lia. eapply reachable_wf; eauto.
Qed.
Print Assumptions C42_certificates_available.

(** ** Non-vacuity *)
Lemma x_signatures_fit : signatures_fit toy_cf xc.
Proof.
  split; intros d c sg c' H; apply (f_equal fst) in H; cbn [fst xc toy_crypto co_signer_sign co_sign_with_alias] in H; injection H as <-; exact Logic.I.
Qed.
Lemma x_names_room : names_room xp 2 0.
Proof.
  split; [|split].
  - intros p n b p' H. apply (f_equal (fun x => fst (fst x))) in H. cbn [fst xp po_issuer_name] in H. injection H as <-. lia.
  - intros p i n p' H. apply (f_equal fst) in H. discriminate H.
  - intros p o p' H. apply (f_equal fst) in H. discriminate H.
Qed.
Lemma x_healthy : healthy toy_cf xc xp.
Proof.
  split; [|split].
  - constructor.
    + intros er [(c & c' & X)|[(c & c' & X)|[(b & c & c' & X)|(c & c' & X)]]]; discriminate.
    + intros l d (c & c1 & c2 & c3 & c4 & dg & _ & _ & _ & X & ->).
      cbn [xc toy_crypto co_hash_finish] in X. assert (E : dg = DSha256 (toy_hash (tc_acc c3))) by congruence. rewrite E.
      cbn [digest_bytes]. rewrite length_to_buf. reflexivity.
    + intros er [(d & i & c & c' & X)|[(l & i & c & c' & X)|(d & c & c' & X)]]; discriminate.
    + intros er [(p & p' & X)|(p & p' & X)]; discriminate.
    + intros er [(p & p' & X)|(_ & u & p & p' & X & L)]; [discriminate|]. cbn in X. inversion X; subst. cbn in L. lia.
    + exact (dep_chunk _ _ _ _ _ (toy_dependable (PkEcdsa256 [] []) (ex_intro _ [] (ex_intro _ [] eq_refl)))).
    + intros []. change (fuel toy_cf) with (S (S 3)). eapply cs_more; [reflexivity|reflexivity|]. eapply cs_end. reflexivity.
    + intros d b sg b' X. cbn in X. inversion X; subst. reflexivity.
    + intros kd a o s b p out L. unfold obliging. eauto 8.
    + intros kd a o s b p out cr c' p' out' X. unfold obliging in X. inversion X; subst. exact Logic.I.
  - intros e [[(c & c' & X)|[(c & c' & X)|[(b & c & c' & X)|(c & c' & X)]]]|[[(d & i & c & c' & X)|[(l & i & c & c' & X)|(d & c & c' & X)]]|
      [(d & i & c & c' & X)|[(h & l & i & c & c' & X)|[(c & c' & X)|[(d & c & c' & X)|(_ & c & X)]]]]]]; try discriminate.
    apply X. split; intros Y; discriminate Y.
  - intros e [(p & b' & p' & X)|[(N0 & p & p' & X)|[(p & p' & X)|[(p & p' & X)|(p & b' & p' & X)]]]]; try discriminate.
    apply N0. apply (f_equal fst) in X. cbn [fst xp po_subject_alt_name] in X. congruence.
Qed.


(** The root context is certified and requested for in buffers of exactly the size of the
    response type; in one of 400 bytes the answer is the justified CertSizeOverflow. *)
Definition x_at (room : nat) : world toy_c unit :=
  let w := x_run [(init_default, 5)] in mkWorld (w_st w) (w_c w) tt (repeat 0 room).
Example C42_certificate_case :
  let w := x_at 1244 in
  config_ok toy_cf /\ sizes_chosen toy_cf /\ keys_fit toy_cf xc /\ signatures_fit toy_cf xc /\ names_room xp 2 0 /\ healthy toy_cf xc xp /\
  reachable toy_cf (w_st w) /\ command_wf toy_cf (certify H0 0) /\
  legitimate toy_cf xp (certify H0 0) 5 (w_st w) /\ legitimate toy_cf xp (certify H0 1) 5 (w_st w) /\
  response_size toy_cf (certify H0 0) = length (w_out w) /\ response_size toy_cf (certify H0 1) = length (w_out w) /\
  (forall i cts, lineage (w_st w) i cts -> (length cts < max_handles toy_cf)%nat) /\
  fst (x_exec (certify H0 0) 5 w) = Ok 704 /\ fst (x_exec (certify H0 1) 5 w) = Ok 816 /\
  fst (x_exec (certify H0 0) 5 (x_at 400)) = Err (InternalError CertSizeOverflow).
Proof.
  set (s0 := w_st (x_run [(init_default, 5)])).
  assert (M : exists x, mine s0 H0 5 0 x /\ c_x509 x = true).
  { eexists. split; [split; [split; [eexists; split; [reflexivity|repeat split; reflexivity]|intros j X; lia]|reflexivity]|reflexivity]. }
  assert (R : reachable toy_cf s0) by (apply x_reachable; toy_wf).
  destruct M as (x & M & Mx). intros w. change (w_st w) with s0.
  split; [exact toy_cf_ok|]. split; [right; reflexivity|]. split; [exact x_keys_fit|]. split; [exact x_signatures_fit|].
  split; [exact x_names_room|]. split; [exact x_healthy|]. split; [exact R|]. split; [vm_compute; repeat split; auto 20; repeat constructor|].
  split; [exists H0, 0%nat, x; split; [reflexivity|]; split; [exact M|]; left; repeat split; try reflexivity; exact Mx|].
  split; [exists H0, 0%nat, x; split; [reflexivity|]; split; [exact M|]; right; split; reflexivity|].
  split; [reflexivity|]. split; [reflexivity|]. split.
  { intros i cts (l & Hp & Fa).
    assert (Only : forall j c, at_slot s0 j c -> live c -> c_parent c = ROOT).
    { intros j c Hc A. do 4 (destruct j as [|j]; [vm_compute in Hc; inversion Hc; subst; (reflexivity || (exfalso; apply A; reflexivity))|]).
      apply nth_error_lt in Hc. vm_compute in Hc. lia. }
    inversion Hp as [? c A B D|? c l' A B D _]; subst; [|destruct (D (Only _ _ A B))].
    inversion Fa as [|? ? ? ? _ F2]; subst. inversion F2; subst. cbn [length toy_cf max_handles]. lia. }
  repeat split; vm_compute; reflexivity.
Qed.
