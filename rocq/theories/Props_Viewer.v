(** Props_Viewer.v -- C56: the certificate viewer shows what the DPE measured. *)
From Coq Require Import String.
From Verif Require Import Base Errors Types StateOps Env Wire Instance Commands Lib Spec Exec Effects Forest History Contract Codec Steps Reach Responses
  Walk Measure Der DerProofs X509 X509Cert X509Run X509Spec X509Gen X509Out X509Read X509ReadOk X509Made X509Total X509Sane X509Cmd X509Facts
  Toy ToyX509 RustCrypto RustProofs Props_X509 Props_Reference Viewer ViewerProofs ViewerCmd ViewerHeader.
Open Scope N_scope.

(** ** What the viewer ought to show *)

(** Object identifiers are shown by name. *)
Definition is_called (oid : bytes) (name : string) : Prop := friendly_name oid = Some name.
Definition hash_name (p : profile) : string :=
  match p with P256Sha256 => "SHA-256 (2.16.840.1.101.3.4.2.1)" | _ => "SHA-384 (2.16.840.1.101.3.4.2.2)" end.
Definition signature_name (p : profile) : string :=
  match p with P256Sha256 => "ecdsa-with-SHA256" | P384Sha384 => "ecdsa-with-SHA384" | Mldsa87 => "ML-DSA-87 (2.16.840.1.101.3.4.3.19)" end.
Definition key_name (p : profile) : string :=
  match p with Mldsa87 => "ML-DSA-87 (2.16.840.1.101.3.4.3.19)" | _ => "ecPublicKey" end.
(** The row of a context: its SVN, its current measurement, its locality as vendor
    information, its type, in a DPE with recursion its cumulative measurement as
    register 0, and nothing else. *)
Definition row_of (p : profile) (recursive : bool) (c : context) (t : vtcb) : Prop :=
  exists alg, is_called alg (hash_name p) /\
  t = {| vt_vendor := None; vt_model := None; vt_version := None; vt_svn := Some (tci_svn (c_tci c)); vt_layer := None; vt_index := None;
         vt_fwids := [{| vf_alg := alg; vf_digest := tci_current (c_tci c) |}]; vt_flags := None;
         vt_vendor_info := Some (be_bytes 4 (tci_locality (c_tci c))); vt_type := Some (le_bytes 4 (tci_type (c_tci c))); vt_mask := None;
         vt_registers := if recursive
           then [{| vr_name := None; vr_num := Some 0; vr_digests := [{| vf_alg := alg; vf_digest := tci_cumulative (c_tci c) |}] |}]
           else [] |}.
(** The table of extensions, by name. *)
Definition table_of (s : shown) : list (option string * bool * details) :=
  map (fun e => (friendly_name (ve_oid e), ve_critical e, ve_details e)) (sh_exts s).
Definition common_rows (critical : bool) (contexts : nat) (ueid : bytes) (ca : bool) (purpose : bytes) : list (option string * bool * details) :=
  [ (Some "tcg-dice-MultiTcbInfo", critical, DContains contexts);
    (Some "tcg-dice-Ueid", critical, DUeid ueid);
    (Some "basicConstraints", true, DConstraints ca None);
    (Some "keyUsage", true, DUsage true ca);
    (Some "extendedKeyUsage", true, DPurposes [purpose]) ]%string.
(** An alternative name of the platform is shown by its size only. *)
Definition san_rows (l : list (option string * bool * details)) : Prop :=
  l = [] \/ exists n, l = [(Some "subjectAltName", false, DLength n)]%string.
(** What certificates and requests of [cmd] have in common: the chain [cts] root first,
    the name made from the digest [db] of the key, and the profile. *)
Definition shows {P} (cf : config) (po : platform_ops P) (cmd : command) (recursive : bool) (cts : list context) (db : bytes) (s : shown) : Prop :=
  Forall2 (row_of (prof cf) recursive) (rev cts) (sh_tcbs s) /\
  sh_subject s = flat (subject_name (common_name (exports cmd)) (firstn 64 (upper_hex db))) /\
  (exists u, sh_ueid s = Some u /\ ueid_for po cmd u) /\
  is_called (sh_sig_alg s) (signature_name (prof cf)) /\ is_called (sh_key_alg s) (key_name (prof cf)) /\
  sh_profile s = match prof cf with P256Sha256 => LP256 | P384Sha384 => LP384 | Mldsa87 => LMldsa87 end.
(** [db] is a digest of the public key [key] of the response. *)
Definition digest_of_key {C} (cf : config) (co : crypto_ops C) (key db : bytes) : Prop :=
  exists chunks, hash_of co chunks db /\ concat chunks = point (prof cf) key.

Lemma shows_ok {P} cf (po : platform_ops P) cmd recursive cts d s u :
  sh_tcbs s = map (vtcb_of (prof cf) recursive) (rev cts) -> sh_subject s = flat (subject_name (subject_cn (exports cmd)) (subject_serial d)) ->
  sh_ueid s = Some u -> ueid_for po cmd u -> sh_sig_alg s = oid_content (sig_alg_oid (prof cf)) ->
  sh_key_alg s = oid_content (key_alg (prof cf)) -> sh_profile s = profile_label (prof cf) ->
  shows cf po cmd recursive cts (digest_bytes d) s.
Proof.
  intros E1 E2 E3 E4 E5 E6 E7. unfold shows. rewrite E1, E2, E5, E6, E7. split.
  { generalize (rev cts). induction l as [|c l IH]; cbn [map]; constructor; [|exact IH].
    exists (oid_content (digest_oid (prof cf))). split; [destruct (prof cf); reflexivity|reflexivity]. }
  split. { unfold subject_serial. rewrite hex_of_spec by apply digest_bytes_bytes. destruct (exports cmd); reflexivity. }
  split; [exists u; auto|]. split; [destruct (prof cf); reflexivity|]. split; destruct (prof cf); reflexivity.
Qed.

(** ** C56: what is shown *)

(** A certificate, whatever stands behind it: every context of the chain, and no other
    row; who issued it and for how long; and every extension. *)
Theorem C56_certificates :
  forall utf8 time pem cf C P (co : crypto_ops C) (po : platform_ops P) cmd loc w n w' h i cts rest,
    config_ok cf -> keys_fit cf co -> issuer_named po -> valid_times po time -> wf cf (w_st w) -> command_wf cf cmd ->
    exec_command cf C P co po (x509_gen cf C P co po) cmd loc w = (Ok n, w') ->
    asks_certificate cmd -> presents cmd h ->
    first_slot (names (w_st w) h loc) i -> lineage (w_st w) i cts -> even_svns cts ->
    exists s key db db2 idn v aki u purpose san,
      view utf8 time pem (output cmd n (w_out w') ++ rest) = Some s /\ sh_is_csr s = false /\
      (exports cmd = false -> key = slice (w_out w') 28 (output_start cmd - 32)) /\
      digest_of_key cf co key db /\ digest_of_key cf co key db2 /\
      shows cf po cmd (if exports cmd then false else N.testbit (st_support (w_st w)) 30) cts db s /\
      platform_gives po (enc idn) v aki /\ sh_issuer s = Some idn /\ sh_validity s = Some (cv_not_before v, cv_not_after v) /\
      sh_serial s = Some (firstn 20 (upper_hex db)) /\
      sh_ueid s = Some u /\ is_called purpose (if exports cmd then "tcg-dice-kp-eca"%string else "tcg-dice-kp-attestLoc"%string) /\ san_rows san /\
      table_of s = (common_rows (N.testbit (st_flags (w_st w)) 15) (List.length cts) u (exports cmd) purpose
        ++ (if exports cmd then [(Some "subjectKeyIdentifier"%string, false, DSki (firstn 20 db2))] else [])
        ++ [(Some "authorityKeyIdentifier"%string, false, DAki (Some aki))] ++ san).
Proof.
  intros utf8 time pem cf C P co po cmd loc w n w' h i cts rest Hcf HK HI HT W HC H HA HP HF HL HE.
  destruct (certificate_command cf Hcf co po _ _ _ _ _ _ W HC H HA HP)
    as (k & a & cr & w0 & w1 & Hc & Hk & Hx & Hh & Hl & Hcr & Hue & Hu & Hs & Ho & Hn & Hb & Hz & Hy).
  rewrite <- Hh, <- Hl, <- Hs in HF. rewrite <- Hs in HL, W.
  destruct (certificate_viewed cf Hcf co po utf8 time pem _ _ _ _ _ _ _ _ rest Hc Hk W Hu HK HI HT HF HL HE)
    as (x & d & wd & idn & v & HD & Hd & HG & (d2 & Hd2 & Hski) & _ & HV). rewrite <- Hb in HV.
  assert (KF : key_of (prof cf) (cr_pubkey cr)).
  { pose proof (made_inv cf co po _ _ _ _ _ _ Hc) as (x' & wd' & m & wr & HD' & _ & _ & _ & _ & _ & Epk & _).
    rewrite Epk. eapply drafted_key; eauto. }
  eexists. exists (key_octets (prof cf) (cr_pubkey cr)), (digest_bytes d), (digest_bytes d2), idn, v, (dr_aki x), (ca_ueid a),
    (oid_content (if exports cmd then id_dice_kp_eca else id_dice_kp_attestLoc)),
    (match dr_san x with
     | Some o => [(Some "subjectAltName"%string, false,
           DLength (length (enc (SEQUENCE [CTX 0 [Prim 0x06 (on_oid o); CTX 0 [UTF8 (on_value o)]]]))))]
     | None => [] end).
  split; [exact HV|]. split; [reflexivity|].
  split; [intros X; rewrite X in Hy; symmetry; exact Hy|].
  split; [apply (key_digest_hashed cf (P := P)); assumption|]. split; [apply (key_digest_hashed cf (P := P)); assumption|].
  split.
  { eapply shows_ok; try reflexivity; [|cbn [sh_subject]; rewrite Hx; reflexivity|exact Hue].
    cbn [sh_tcbs]. unfold output_recursive. rewrite Hx, Hs. unfold sup_recursive. rewrite contains_bit. reflexivity. }
  split; [exact HG|]. split; [reflexivity|]. split; [reflexivity|].
  split; [cbn [sh_serial]; unfold subject_serial; rewrite hex_of_spec by apply digest_bytes_bytes; rewrite firstn_firstn; reflexivity|].
  split; [reflexivity|]. split; [destruct (exports cmd); reflexivity|].
  split; [destruct (dr_san x); [right; eexists; reflexivity|left; reflexivity]|].
  unfold table_of. cbn [sh_exts]. unfold table, output_exts. cbn [xd_critical xd_ca xd_ueid xd_ski xd_aki xd_san]. rewrite Hx, Hcr, Hski.
  destruct (exports cmd), (dr_san x); reflexivity.
Qed.
Print Assumptions C56_certificates.

(** A signed request: the same from the CMS message and from the request it holds; that
    it has no issuer, no serial number and no validity is said. *)
Theorem C56_requests :
  forall utf8 time pem cf C P (co : crypto_ops C) (po : platform_ops P) cmd loc w n w' h i cts,
    config_ok cf -> keys_fit cf co -> signer_named po -> wf cf (w_st w) -> command_wf cf cmd ->
    exec_command cf C P co po (x509_gen cf C P co po) cmd loc w = (Ok n, w') ->
    asks_request cmd -> presents cmd h ->
    first_slot (names (w_st w) h loc) i -> lineage (w_st w) i cts -> even_svns cts ->
    exists s db u purpose san,
      view utf8 time pem (output cmd n (w_out w')) = Some s /\
      (exists csr, read_content (output cmd n (w_out w')) = Some csr /\ forall rest, view utf8 time pem (csr ++ rest) = Some s) /\
      sh_is_csr s = true /\ sh_issuer s = None /\ sh_serial s = None /\ sh_validity s = None /\
      digest_of_key cf co (slice (w_out w') 28 (output_start cmd - 32)) db /\
      shows cf po cmd (N.testbit (st_support (w_st w)) 30) cts db s /\
      sh_ueid s = Some u /\ is_called purpose "tcg-dice-kp-attestLoc"%string /\ san_rows san /\
      table_of s = common_rows (N.testbit (st_flags (w_st w)) 15) (List.length cts) u false purpose ++ san.
Proof.
  intros utf8 time pem cf C P co po cmd loc w n w' h i cts Hcf HK HI W HC H HA HP HF HL HE.
  destruct (request_command cf co po _ _ _ _ _ _ W HC H HA HP)
    as (a & cr & w1 & Hc & Hh & Hl & Hcr & Hue & Hu & _ & _ & _ & Hn & Hb & Hz & Hy).
  rewrite <- Hh, <- Hl in HF.
  destruct (request_viewed cf Hcf co po utf8 time pem _ _ _ _ _ _ _ _ Hc eq_refl W Hu HK HI HF HL HE)
    as (x & d & wd & HD & Hd & _ & HV & HR). rewrite <- Hb in HV, HR.
  destruct (request_read cf Hcf co po _ _ _ _ _ _ _ _ Hc eq_refl W Hu HK (signer_named_der _ HI) HF HL HE)
    as (_ & (csr & info & d' & g1 & g2 & c1 & c2 & m & _ & _ & Hcsr & _) & _). rewrite <- Hb in Hcsr.
  assert (KF : key_of (prof cf) (cr_pubkey cr)).
  { pose proof (made_inv cf co po _ _ _ _ _ _ Hc) as (x' & wd' & m' & wr & HD' & _ & _ & _ & _ & _ & Epk & _).
    rewrite Epk. eapply drafted_key; eauto. }
  assert (HX : exports cmd = false) by (destruct cmd; try destruct HA; reflexivity).
  eexists. exists (digest_bytes d), (ca_ueid a), (oid_content id_dice_kp_attestLoc),
    (match dr_san x with
     | Some o => [(Some "subjectAltName"%string, false,
           DLength (length (enc (SEQUENCE [CTX 0 [Prim 0x06 (on_oid o); CTX 0 [UTF8 (on_value o)]]]))))]
     | None => [] end).
  split; [exact HV|]. split; [exists csr; split; [exact Hcsr|intros rest; apply HR; exact Hcsr]|].
  do 4 (split; [reflexivity|]).
  split; [rewrite Hy; apply (key_digest_hashed cf (P := P)); assumption|].
  split.
  { eapply shows_ok; try reflexivity; [|rewrite HX; reflexivity|exact Hue].
    cbn [sh_tcbs]. unfold output_recursive. cbn [kind_exported]. unfold sup_recursive. rewrite contains_bit. reflexivity. }
  split; [reflexivity|]. split; [reflexivity|].
  split; [destruct (dr_san x); [right; eexists; reflexivity|left; reflexivity]|].
  unfold table_of. cbn [sh_exts]. unfold table, output_exts. cbn [xd_critical xd_ca xd_ueid xd_ski xd_aki xd_san kind_exported]. rewrite Hcr.
  destruct (dr_san x); reflexivity.
Qed.
Print Assumptions C56_requests.

(** ** C56: the graph *)

Lemma hex_encode_spec b : all_bytes b -> hex_encode b = upper_hex b.
Proof. exact (hex_of_spec b). Qed.
(** One node for each row, in their order, then one for the certificate; an arrow from
    each to the next, and no other. *)
Theorem C56_graph :
  forall s ns es, graph s = (ns, es) ->
    let n := List.length (sh_tcbs s) in
    map fst ns = seq 0 (S n) /\ es = map (fun i => (i, S i)) (seq 0 n) /\
    nth_error ns n = Some (n, Cert (sh_is_csr s) (Nat.eqb n 0) (sh_subject s) (sh_issuer s)) /\
    forall i t, nth_error (sh_tcbs s) i = Some t ->
      exists ty dg, nth_error ns i = Some (i, Tcb (Nat.eqb i 0) ty (vt_svn t) dg) /\
        (forall b, vt_type t = Some b -> all_bytes b -> exists text, ty = Some ([48; 120] ++ upper_hex b ++ text) /\
           ((forall x, In x b -> 0x20 <= x <= 0x7E) -> b <> [] -> text = [32; 40; 39] ++ b ++ [39; 41])) /\
        (forall f fs, vt_fwids t = f :: fs -> all_bytes (vf_digest f) -> (8 < List.length (vf_digest f))%nat ->
           dg = Some (firstn 16 (upper_hex (vf_digest f)) ++ [46; 46; 46])).
Proof.
  intros s ns es H n. unfold graph in H. destruct (tcb_graph 0 (sh_tcbs s)) as [ns0 es0] eqn:E. fold n in H. injection H as <- <-.
  destruct (tcb_graph_spec _ _ _ _ E) as (E1 & E2 & E3). fold n in E1, E2. cbn [Nat.ltb Nat.leb] in E2.
  assert (LN : List.length ns0 = n) by (rewrite <- (map_length fst), E1; apply seq_length).
  split; [rewrite map_app, E1, seq_S; reflexivity|]. split.
  { rewrite E2. clear. destruct n as [|n]; [reflexivity|]. cbn [Nat.ltb Nat.leb seq map tl]. replace (S n - 1)%nat with n by lia.
    change (@cons nat 0%nat (seq 1 n)) with (seq 0 (S n)). change ((0%nat, 1%nat) :: map (fun i => (i, S i)) (seq 1 n)) with (map (fun i => (i, S i)) (seq 0 (S n))).
    rewrite (seq_S n 0), map_app. rewrite <- seq_shift, map_map. cbn [map Nat.add]. f_equal. apply map_ext. intros i. f_equal. lia. }
  split.
  { rewrite nth_error_app2, LN, Nat.sub_diag by lia. cbn [nth_error]. unfold n. destruct (sh_tcbs s); reflexivity. }
  intros i t Hi. assert (Li : (i < n)%nat) by (apply nth_error_Some; unfold n; congruence).
  specialize (E3 _ _ Hi). rewrite nth_error_app1 by lia. cbn [Nat.add] in E3. rewrite E3. unfold tcb_node.
  eexists. eexists. split; [reflexivity|]. split.
  - intros b Hb HB. rewrite Hb. cbn [option_map]. unfold format_type. rewrite hex_encode_spec by exact HB. eexists. split; [reflexivity|].
    intros HR HN. destruct b as [|y b]; [congruence|]. cbn [List.length Nat.eqb negb andb].
    replace (forallb _ (y :: b)) with true; [reflexivity|]. symmetry. apply forallb_forall. intros z Hz. specialize (HR z Hz).
    apply andb_true_intro. split; apply N.leb_le; lia.
  - intros f fs Hf HB HL. rewrite Hf. unfold brief. rewrite hex_encode_spec by exact HB.
    assert (LH : List.length (upper_hex (vf_digest f)) = (List.length (vf_digest f) * 2)%nat).
    { rewrite <- hex_of_spec by exact HB. apply hex_len. }
    rewrite LH. destruct (Nat.ltb_spec 16 (List.length (vf_digest f) * 2)); [reflexivity|lia].
Qed.
Print Assumptions C56_graph.

(** The rows of a chain, root first: each context is the parent of the next, the first is
    a root and the last is the one the command named. *)
Theorem C56_chain :
  forall s i cts, lineage s i cts ->
    (forall j a b, nth_error (rev cts) j = Some a -> nth_error (rev cts) (S j) = Some b -> at_slot s (c_parent b) a) /\
    (exists r, nth_error (rev cts) 0 = Some r /\ c_parent r = ROOT) /\
    (exists c, nth_error (rev cts) (List.length cts - 1) = Some c /\ at_slot s i c).
Proof.
  intros s i cts H. split; [|split].
  - intros j a b Ha Hb. apply nth_rev in Ha as [La Ha]. apply nth_rev in Hb as [Lb Hb].
    eapply (lineage_next s i cts H (List.length cts - S (S j))); [exact Hb|].
    replace (S (List.length cts - S (S j))) with (List.length cts - S j)%nat by lia. exact Ha.
  - destruct (lineage_root _ _ _ H) as (l & c & -> & HR). exists c. rewrite rev_app_distr. split; [reflexivity|exact HR].
  - destruct (lineage_own _ _ _ H) as (c & l & -> & HR). exists c. cbn [rev List.length]. split; [|exact HR].
    rewrite nth_error_app2; rewrite rev_length; [|lia]. replace (S (List.length l) - 1 - List.length l)%nat with 0%nat by lia. reflexivity.
Qed.
Print Assumptions C56_chain.

(** ** C56: responses as they came *)

Lemma output_der_head utf8 time pem cf C P (co : crypto_ops C) (po : platform_ops P) cmd loc w n w' h i cts :
  config_ok cf -> keys_fit cf co -> wf cf (w_st w) -> command_wf cf cmd ->
  exec_command cf C P co po (x509_gen cf C P co po) cmd loc w = (Ok n, w') ->
  asks_certificate cmd /\ issuer_named po /\ valid_times po time \/ asks_request cmd /\ signer_named po -> presents cmd h ->
  first_slot (names (w_st w) h loc) i -> lineage (w_st w) i cts -> even_svns cts ->
  exists t r, output cmd n (w_out w') = 0x30 :: r /\ view utf8 time pem (output cmd n (w_out w')) = Some t.
Proof.
  intros Hcf HK W HC H HA HP HF HL HE. destruct HA as [(HA & HI & HT)|(HA & HI)].
  - destruct (certificate_command cf Hcf co po _ _ _ _ _ _ W HC H HA HP)
      as (k & a & cr & w0 & w1 & Hc & Hk & Hx & Hh & Hl & Hcr & Hue & Hu & Hs & Ho & Hn & Hb & Hz & Hy).
    rewrite <- Hh, <- Hl, <- Hs in HF. rewrite <- Hs in HL, W.
    destruct (certificate_viewed cf Hcf co po utf8 time pem _ _ _ _ _ _ _ _ [] Hc Hk W Hu HK HI HT HF HL HE)
      as (x & d & wd & idn & v & HD & Hd & HG & _ & (l & El) & HV). rewrite <- Hb in El, HV. rewrite app_nil_r in HV.
    eexists. eexists. split; [rewrite El; reflexivity|exact HV].
  - destruct (request_command cf co po _ _ _ _ _ _ W HC H HA HP)
      as (a & cr & w1 & Hc & Hh & Hl & Hcr & Hue & Hu & _ & _ & _ & Hn & Hb & Hz & Hy).
    rewrite <- Hh, <- Hl in HF.
    destruct (request_viewed cf Hcf co po utf8 time pem _ _ _ _ _ _ _ _ Hc eq_refl W Hu HK HI HF HL HE)
      as (x & d & wd & HD & Hd & (l & El) & HV & _). rewrite <- Hb in El, HV.
    eexists. eexists. split; [rewrite El; reflexivity|exact HV].
Qed.

(** The response of CertifyKey of the P-384 profile, with its header: shown like its
    certificate or request. *)
Theorem C56_response :
  forall utf8 time pem cf C P (co : crypto_ops C) (po : platform_ops P) c loc w n w' h i cts,
    let cmd := CmdCertifyKey (CertifyP384 c) in
    config_ok cf -> keys_fit cf co -> wf cf (w_st w) -> command_wf cf cmd ->
    exec_command cf C P co po (x509_gen cf C P co po) cmd loc w = (Ok n, w') ->
    asks_certificate cmd /\ issuer_named po /\ valid_times po time \/ asks_request cmd /\ signer_named po -> presents cmd h ->
    first_slot (names (w_st w) h loc) i -> lineage (w_st w) i cts -> even_svns cts ->
    exists s, view utf8 time pem (firstn (N.to_nat n) (w_out w')) = Some s /\ view utf8 time pem (output cmd n (w_out w')) = Some s.
Proof.
  intros utf8 time pem cf C P co po c loc w n w' h i cts cmd Hcf HK W HC H HA HP HF HL HE.
  destruct (output_der_head utf8 time pem cf C P co po cmd loc w n w' h i cts Hcf HK W HC H HA HP HF HL HE) as (s & r & Er & EV).
  exists s. split; [|exact EV]. rewrite <- EV.
  pose proof (command_reported cf Hcf C P co po (x509_gen cf C P co po)) as CR. destruct (CR cmd loc w n w' W H) as [SH _]. clear CR. unfold success_header in SH.
  assert (EO : skipn 128 (firstn (N.to_nat n) (w_out w')) = output cmd n (w_out w')).
  { unfold output, slice. change (output_start cmd) with 128%nat. apply skipn_firstn_comm. }
  assert (LB : (128 <= List.length (firstn (N.to_nat n) (w_out w')))%nat).
  { destruct (Nat.le_gt_cases 128 (List.length (firstn (N.to_nat n) (w_out w')))) as [L|L]; [exact L|].
    rewrite (skipn_all2 (n := 128)) in EO by lia. rewrite Er in EO. discriminate. }
  assert (HR : firstn 4 (firstn (N.to_nat n) (w_out w')) = str_REPD).
  { rewrite firstn_length in LB. rewrite firstn_firstn, Nat.min_l by lia.
    apply (f_equal (firstn 4)) in SH. unfold slice in SH. cbn [skipn] in SH. rewrite firstn_firstn in SH. exact SH. }
  rewrite (view_header utf8 time pem _ LB HR); rewrite EO; [reflexivity|rewrite Er; reflexivity..].
Qed.
Print Assumptions C56_response.

Lemma skipn_twice {A} a : forall b (l : list A), skipn a (skipn b l) = skipn (b + a) l.
Proof. induction b as [|b IH]; intros l; [reflexivity|]. destruct l as [|x l]; [destruct a; reflexivity|]. cbn [skipn Nat.add]. apply IH. Qed.
(** The responses of the P-256 profile have a header of 96 octets, not of the 128 that
    are skipped: what is left is the inside of the certificate or request, and the viewer
    shows nothing at all. *)
Theorem C56_response_p256 :
  forall utf8 time pem cf C P (co : crypto_ops C) (po : platform_ops P) c loc w n w' h i cts,
    let cmd := CmdCertifyKey (CertifyP256 c) in
    config_ok cf -> prof cf = P256Sha256 -> keys_fit cf co -> wf cf (w_st w) -> command_wf cf cmd ->
    exec_command cf C P co po (x509_gen cf C P co po) cmd loc w = (Ok n, w') ->
    asks_certificate cmd /\ issuer_der po \/ asks_request cmd /\ signer_der po -> presents cmd h ->
    first_slot (names (w_st w) h loc) i -> lineage (w_st w) i cts -> even_svns cts ->
    view utf8 time pem (firstn (N.to_nat n) (w_out w')) = None.
Proof.
  intros utf8 time pem cf C P co po c loc w n w' h i cts cmd Hcf EP HK W HC H HA HP HF HL HE.
  pose proof (command_reported cf Hcf C P co po (x509_gen cf C P co po)) as CR. destruct (CR cmd loc w n w' W H) as [SH _]. clear CR.
  unfold success_header in SH.
  assert (EO : skipn 128 (firstn (N.to_nat n) (w_out w')) = skipn 32 (output cmd n (w_out w'))).
  { unfold output, slice. change (output_start cmd) with 96%nat. rewrite <- skipn_firstn_comm, skipn_twice. reflexivity. }
  assert (HR : (4 <= N.to_nat n)%nat -> firstn 4 (firstn (N.to_nat n) (w_out w')) = str_REPD).
  { intros L. rewrite firstn_firstn, Nat.min_l by lia.
    apply (f_equal (firstn 4)) in SH. unfold slice in SH. cbn [skipn] in SH. rewrite firstn_firstn in SH. exact SH. }
  assert (LB : skipn 32 (output cmd n (w_out w')) <> [] -> (128 <= List.length (firstn (N.to_nat n) (w_out w')))%nat).
  { intros X. destruct (Nat.le_gt_cases 128 (List.length (firstn (N.to_nat n) (w_out w')))) as [L|L]; [exact L|].
    rewrite (skipn_all2 (n := 128)) in EO by lia. congruence. }
  destruct HA as [(HA & HI)|(HA & HI)].
  - destruct (certificate_command cf Hcf co po _ _ _ _ _ _ W HC H HA HP)
      as (k & a & cr & w0 & w1 & Hc & Hk & Hx & Hh & Hl & Hcr & Hue & Hu & Hs & Ho & Hn & Hb & Hz & Hy).
    rewrite <- Hh, <- Hl, <- Hs in HF. rewrite <- Hs in HL, W.
    destruct (certificate_inside cf Hcf co po _ _ _ _ _ _ _ _ Hc Hk EP W Hu HK HI HF HL HE) as (HB & c1 & c2 & c3 & q & E & B1 & B2 & B3).
    rewrite <- Hb in E, HB. rewrite E in *. specialize (LB ltac:(discriminate)). 
    assert (HBs : all_bytes (c1 :: c2 :: c3 :: 0x30 :: 0x0A :: q)).
    { rewrite <- E. rewrite <- (firstn_skipn 32 (output cmd n (w_out w'))) in HB. apply all_bytes_app in HB. tauto. }
    destruct (unread utf8 time c1 c2 c3 q HBs ltac:(lia) ltac:(lia)) as [U1 U2].
    rewrite firstn_length in LB.
    apply (skips utf8 time pem _ _ c1 ltac:(rewrite firstn_length; exact LB) (HR ltac:(lia)) EO); [|lia|exact U1|exact U2].
    intros X. apply (f_equal (fun l => nth 3 l 0)) in X. discriminate X.
  - destruct (request_command cf co po _ _ _ _ _ _ W HC H HA HP)
      as (a & cr & w1 & Hc & Hh & Hl & Hcr & Hue & Hu & _ & _ & _ & Hn & Hb & Hz & Hy).
    rewrite <- Hh, <- Hl in HF.
    destruct (request_inside cf Hcf co po _ _ _ _ _ _ _ _ Hc eq_refl EP W Hu HK HI HF HL HE) as (q & E & B).
    rewrite <- Hb in E. rewrite E in *. specialize (LB ltac:(discriminate)). rewrite firstn_length in LB.
    apply (skips utf8 time pem _ _ _ ltac:(rewrite firstn_length; exact LB) (HR ltac:(lia)) EO); [discriminate|discriminate| |].
    + unfold cms_content, decode. rewrite unread_oid by exact B. reflexivity.
    + intros t Ht. unfold first_value in Ht. rewrite unread_oid in Ht by exact B. discriminate Ht.
Qed.
Print Assumptions C56_response_p256.

(** ** Non-vacuity *)

Definition yes (_ : bytes) : bool := true.
Definition any_time (_ : N) (_ : bytes) : bool := true.
Lemma x_issuer_named : issuer_named xp.
Proof.
  intros p n b p' H. pose proof (f_equal (fun x => fst (fst x)) H) as E1. pose proof (f_equal (fun x => snd (fst x)) H) as E2.
  cbn [fst snd xp po_issuer_name] in E1, E2. injection E1 as <-. subst b. exists (Cons 48 []). split; [|split; reflexivity].
  vm_compute. repeat split; discriminate.
Qed.
Lemma x_signer_named : signer_named xp.
Proof. intros p sid p' H. apply (f_equal fst) in H. cbn [fst xp po_signer_identifier] in H. injection H as <-. exact I. Qed.
Lemma x_valid_times : valid_times xp any_time.
Proof. intros p v p' H. split; reflexivity. Qed.
(** A platform that names its signer by a Name, here the issuer of the names "A". *)
Definition x_name : der := Cons 0x30 [Cons 0x31 [Cons 0x30 [Prim 6 [0x55; 4; 3]; Prim 0x13 [65]]]].
Definition xp_named : platform_ops unit :=
  {| po_certificate_chain := po_certificate_chain xp; po_issuer_name := fun buf p => (inl (len (enc x_name)), enc x_name ++ skipn (length (enc x_name)) buf, p);
     po_signer_identifier := fun p => (inl (IssuerAndSerialNumber (enc x_name) [5]), p);
     po_issuer_key_identifier := po_issuer_key_identifier xp; po_vendor_id := po_vendor_id xp; po_vendor_sku := po_vendor_sku xp;
     po_auto_init_locality := po_auto_init_locality xp; po_cert_validity := po_cert_validity xp;
     po_subject_alt_name := po_subject_alt_name xp; po_ueid := po_ueid xp |}.
Example C56_named : issuer_named xp_named /\ signer_named xp_named /\ name_ok x_name = true /\
  let w := x_run (child_with 5) in
  let r := exec_command toy_cf toy_c unit xc xp_named (x509_gen toy_cf toy_c unit xc xp_named) (certify H0 0) 0 w in
  exists n s, fst r = Ok n /\ view yes any_time Some (output (certify H0 0) n (w_out (snd r))) = Some s /\ sh_issuer s = Some x_name.
Proof.
  split; [|split; [|split; [reflexivity|]]].
  - intros p n b p' H. pose proof (f_equal (fun x => fst (fst x)) H) as E1. pose proof (f_equal (fun x => snd (fst x)) H) as E2.
    cbn [fst snd xp_named po_issuer_name] in E1, E2. injection E1 as <-. subst b. exists x_name. split; [|split; reflexivity].
    vm_compute. repeat split; try discriminate; repeat constructor.
  - intros p sid p' H. apply (f_equal fst) in H. cbn [fst xp_named po_signer_identifier] in H. injection H as <-.
    cbn [cap_sid]. split; [|vm_compute; discriminate]. exists x_name. split; [|split; reflexivity]. vm_compute. repeat split; try discriminate; repeat constructor.
  - cbv zeta. exists 841. eexists. split; [vm_compute; reflexivity|]. split; [vm_compute; reflexivity|reflexivity].
Qed.
(** The certificate of a child with SVN 5: two rows, the root's first. *)
Example C56_case :
  let b := output (certify H0 0) 829 (w_out (snd (x_exec (certify H0 0) 0 (x_run (child_with 5))))) in
  exists s, view yes any_time Some (b ++ [1; 2; 3]) = Some s /\ map vt_svn (sh_tcbs s) = [Some 0; Some 5] /\
    map vt_type (sh_tcbs s) = [Some [0; 0; 0; 0]; Some [5; 0; 0; 0]] /\ snd (graph s) = [(0, 1); (1, 2)]%nat /\
    sh_profile s = LP256 /\ List.length (sh_exts s) = 6%nat.
Proof. cbv zeta. eexists. split; [vm_compute; reflexivity|]. repeat split. Qed.
(** A DPE of the P-384 profile. *)
Definition wide_cf : config :=
  {| max_handles := 4; feat_p256 := false; feat_p384 := true; feat_mldsa := false; prof := P384Sha384; fuel := 5 |}.
Definition wide_ops := rust_ops N toy_pr AlgEcdsa384 AlgSha384.
Definition wide_exec (cmd : command) (loc : N) : world (rust_c N) unit -> result N * world (rust_c N) unit :=
  exec_command wide_cf (rust_c N) unit wide_ops xp (x509_gen wide_cf (rust_c N) unit wide_ops xp) cmd loc.
Definition wide_w : world (rust_c N) unit :=
  snd (wide_exec init_default 0 (mkWorld (state_new wide_cf all_features 0) (rust_new N 3) tt (repeat 0 (N.to_nat 2100)))).
Definition wide_certify (format : N) : command :=
  CmdCertifyKey (CertifyP384 {| ck_handle := H0; ck_flags := 0; ck_format := format; ck_label := repeat 3 48 |}).
Example C56_response_case :
  exists n c s, fst (wide_exec (wide_certify 0) 0 wide_w) = Ok n /\ command_wf wide_cf (wide_certify 0) /\
    first_slot (names (w_st wide_w) H0 0) 0 /\ lineage (w_st wide_w) 0 [c] /\ even_svns [c] /\ keys_fit wide_cf wide_ops /\
    view yes any_time Some (firstn (N.to_nat n) (w_out (snd (wide_exec (wide_certify 0) 0 wide_w)))) = Some s /\ List.length (sh_tcbs s) = 1%nat.
Proof.
  exists 849, (nth 0 (st_contexts (w_st wide_w)) (ctx_new wide_cf)). eexists. split; [vm_compute; reflexivity|].
  split; [repeat split; repeat constructor|].
  split; [split; [eexists; vm_compute; repeat split|intros j Hj; lia]|].
  split. { assert (E : chain_fn 2 (w_st wide_w) 0 = Some [nth 0 (st_contexts (w_st wide_w)) (ctx_new wide_cf)]) by (vm_compute; reflexivity).
           exact (chain_fn_ok _ _ _ _ E). }
  split; [apply uniform_even; intros a b [<-|[]] [<-|[]]; reflexivity|].
  split; [apply rust_keys_fit; reflexivity|]. split; vm_compute; reflexivity.
Qed.

(** ** What is not shown *)

(** A response of a DPE with the P-256 profile: its certificate is shown, the response
    itself is not (C56_response_p256: none is). *)
Theorem C56_response_refuted :
  exists w n w',
    config_ok toy_cf /\ keys_fit toy_cf xc /\ issuer_named xp /\ valid_times xp any_time /\ reachable toy_cf (w_st w) /\
    command_wf toy_cf (certify H0 0) /\
    exec_command toy_cf toy_c unit xc xp (x509_gen toy_cf toy_c unit xc xp) (certify H0 0) 0 w = (Ok n, w') /\
    view yes any_time Some (output (certify H0 0) n (w_out w')) <> None /\
    forall utf8 time pem, view utf8 time pem (firstn (N.to_nat n) (w_out w')) = None.
Proof.
  exists (x_run (child_with 5)), 829, (snd (x_exec (certify H0 0) 0 (x_run (child_with 5)))).
  split; [exact toy_cf_ok|]. split; [exact x_keys_fit|]. split; [exact x_issuer_named|]. split; [exact x_valid_times|].
  split; [apply child_reachable; reflexivity|]. split; [repeat split; repeat constructor|].
  split; [apply x_ok_exec; vm_compute; reflexivity|]. split; [vm_compute; discriminate|].
  pose proof C29_case as (_ & _ & A3 & _ & A5 & A6 & _ & _ & A8 & _ & _ & A9 & A10 & A11 & A12 & _). intros utf8 time pem.
  refine (C56_response_p256 utf8 time pem toy_cf toy_c unit xc xp _ 0 _ 829 _ H0 1 _ toy_cf_ok eq_refl x_keys_fit A5 A6 _ (or_introl (conj A8 A3)) A9 A10 A11 A12).
  apply x_ok_exec; vm_compute; reflexivity.
Qed.
Print Assumptions C56_response_refuted.

(** If the SVNs on the chain take different numbers of octets, so that what CertifyKey
    wrote is not DER (C29_uneven_refuted), nothing is shown of certificate or request. *)
Theorem C56_uneven_refuted :
  exists w n n' w' w'',
    config_ok toy_cf /\ keys_fit toy_cf xc /\ issuer_named xp /\ signer_named xp /\ valid_times xp any_time /\ reachable toy_cf (w_st w) /\
    command_wf toy_cf (certify H0 0) /\ command_wf toy_cf (certify H0 1) /\
    exec_command toy_cf toy_c unit xc xp (x509_gen toy_cf toy_c unit xc xp) (certify H0 0) 0 w = (Ok n, w') /\
    view yes any_time Some (output (certify H0 0) n (w_out w')) = None /\
    exec_command toy_cf toy_c unit xc xp (x509_gen toy_cf toy_c unit xc xp) (certify H0 1) 0 w = (Ok n', w'') /\
    view yes any_time Some (output (certify H0 1) n' (w_out w'')) = None.
Proof.
  exists (x_run (child_with 200)), 830, 945, (snd (x_exec (certify H0 0) 0 (x_run (child_with 200)))), (snd (x_exec (certify H0 1) 0 (x_run (child_with 200)))).
  split; [exact toy_cf_ok|]. split; [exact x_keys_fit|]. split; [exact x_issuer_named|]. split; [exact x_signer_named|]. split; [exact x_valid_times|].
  split; [apply child_reachable; reflexivity|].
  split; [repeat split; repeat constructor|]. split; [repeat split; repeat constructor|].
  split; [apply x_ok_exec; vm_compute; reflexivity|]. split; [vm_compute; reflexivity|].
  split; [apply x_ok_exec; vm_compute; reflexivity|]. vm_compute; reflexivity.
Qed.
Print Assumptions C56_uneven_refuted.

(** Octets behind a certificate do not matter (C56_certificates); behind the CMS message
    of a request, one is enough for nothing to be shown. *)
Theorem C56_trailing_refuted :
  exists w n w' s,
    config_ok toy_cf /\ keys_fit toy_cf xc /\ signer_named xp /\ reachable toy_cf (w_st w) /\ command_wf toy_cf (certify H0 1) /\
    exec_command toy_cf toy_c unit xc xp (x509_gen toy_cf toy_c unit xc xp) (certify H0 1) 0 w = (Ok n, w') /\
    view yes any_time Some (output (certify H0 1) n (w_out w')) = Some s /\
    view yes any_time Some (output (certify H0 1) n (w_out w') ++ [0]) = None.
Proof.
  exists (x_run (child_with 5)), 946, (snd (x_exec (certify H0 1) 0 (x_run (child_with 5)))). eexists.
  split; [exact toy_cf_ok|]. split; [exact x_keys_fit|]. split; [exact x_signer_named|].
  split; [apply child_reachable; reflexivity|]. split; [repeat split; repeat constructor|].
  split; [apply x_ok_exec; vm_compute; reflexivity|]. split; vm_compute; reflexivity.
Qed.
Print Assumptions C56_trailing_refuted.

(** The type of a context is shown as a text, but in the opposite order to the one in
    which the samples of the tool make types from texts (tools/build.rs:109-142,
    sample_dpe_cert.rs:158: big-endian, the first letter being the highest octet): a child of type "TEST" is
    shown as 'TSET'. *)
Definition str_TEST : bytes := [84; 69; 83; 84].
Definition typed_child : list (command * N) :=
  [(init_default, 0);
   (CmdDeriveContext {| dc_handle := H0; dc_data := data 7; dc_flags := 2 ^ 28 + 2 ^ 25; dc_tci_type := be_val str_TEST;
                        dc_target_locality := 0; dc_svn := 0 |}, 0)].
Theorem C56_type_refuted :
  exists w n w' s root svn dg,
    config_ok toy_cf /\ keys_fit toy_cf xc /\ issuer_named xp /\ valid_times xp any_time /\ reachable toy_cf (w_st w) /\
    command_wf toy_cf (certify H0 0) /\
    exec_command toy_cf toy_c unit xc xp (x509_gen toy_cf toy_c unit xc xp) (certify H0 0) 0 w = (Ok n, w') /\
    (exists c, at_slot (w_st w) 1 c /\ tci_type (c_tci c) = be_val str_TEST) /\
    view yes any_time Some (output (certify H0 0) n (w_out w')) = Some s /\
    nth_error (fst (graph s)) 1 = Some (1%nat, Tcb root
      (Some ([48; 120] ++ upper_hex [84; 83; 69; 84] ++ [32; 40; 39] ++ [84; 83; 69; 84] ++ [39; 41])) svn dg).
Proof.
  exists (x_run typed_child), 829, (snd (x_exec (certify H0 0) 0 (x_run typed_child))). do 4 eexists.
  split; [exact toy_cf_ok|]. split; [exact x_keys_fit|]. split; [exact x_issuer_named|]. split; [exact x_valid_times|].
  split. { apply x_reachable. apply Forall_cons; [split; [reflexivity|reflexivity]|]. apply Forall_cons; [|apply Forall_nil].
           split; [|reflexivity]. cbn [fst command_wf]. repeat split; try reflexivity; repeat constructor. }
  split; [repeat split; repeat constructor|].
  split; [apply x_ok_exec; vm_compute; reflexivity|].
  split; [eexists; split; [vm_compute; reflexivity|reflexivity]|]. split; vm_compute; reflexivity.
Qed.
Print Assumptions C56_type_refuted.

(** ** Other certificates *)

(** The certificates of a DPE carry no path length; that of any other certificate is
    shown as it is. *)
Lemma short_len n : n < 128 -> der_len n = [n].
Proof. intros H. unfold der_len. destruct (N.ltb_spec n 128); [reflexivity|lia]. Qed.
Theorem C56_constraints :
  forall ca path, (forall n, path = Some n -> n < 2 ^ 64) ->
    view_constraints (enc (SEQUENCE ((if ca : bool then [TRUE] else []) ++ match path with Some n => [INTEGER n] | None => [] end)))
    = Some (DConstraints ca path).
Proof.
  intros ca path HP.
  assert (HU : forall n, path = Some n -> (List.length (der_uint n) <= 9)%nat /\ all_bytes (der_uint n)).
  { intros n E. specialize (HP n E). pose proof (be_min_shortest n) as S. pose proof (shortest_be_len n _ 8 S HP) as L.
    destruct S as (A & _). unfold der_uint. destruct (be_min n) as [|b r]; [split; [cbn; lia|repeat constructor]|].
    destruct (N.ltb b 128); [split; [lia|exact A]|]. split; [cbn [List.length] in *; lia|]. constructor; [reflexivity|exact A]. }
  set (t := SEQUENCE _).
  assert (PT : proper t).
  { apply proper_cons. split; [vm_compute; repeat split; discriminate|]. apply Forall_app. split.
    - destruct ca; constructor; [|constructor]. vm_compute. repeat split; try discriminate. repeat constructor.
    - destruct path as [n|]; constructor; [|constructor]. destruct (HU n eq_refl) as [_ B]. split; [vm_compute; repeat split; discriminate|exact B]. }
  assert (ST : small t).
  { assert (EP : forall tag c, (List.length c < 128)%nat -> List.length (enc (Prim tag c)) = (2 + List.length c)%nat).
    { intros tag c L. change (enc (Prim tag c)) with (tlv der_len tag c). rewrite tlv_length, short_len by lia. reflexivity. }
    unfold small. apply N.lt_trans with 100; [|reflexivity].
    assert (LK : (List.length (List.concat (map enc ((if ca : bool then [TRUE] else []) ++ match path with Some n => [INTEGER n] | None => [] end))) <= 14)%nat).
    { destruct ca, path as [n|]; cbn [app map List.concat]; rewrite ?app_nil_r, ?app_length; unfold TRUE, INTEGER;
        try (destruct (HU n eq_refl) as [L _]); rewrite ?EP by (cbn [List.length]; lia); cbn [List.length]; lia. }
    unfold t, SEQUENCE. match goal with |- context [enc (Cons 0x30 ?l)] => change (enc (Cons 0x30 l)) with (tlv der_len 0x30 (List.concat (map enc l))) end.
    rewrite tlv_length, short_len by lia. cbn [List.length]. lia. }
  unfold view_constraints. rewrite (decode_enc t PT ST). cbn [obind].
  assert (HR : forall n, path = Some n -> the_u64 (Prim 2 (der_uint n)) = Some n).
  { intros n E. unfold the_u64. cbn [the_octets obind]. apply read_u64_uint, HP, E. }
  clear HP HU PT ST. destruct ca, path as [n|]; subst t.
  - change (flat _) with (Cons 0x30 [Prim 1 [255]; Prim 2 (der_uint n)]). specialize (HR n eq_refl). revert HR. generalize (der_uint n). intros b HR.
    cbn [members N.eqb Pos.eqb obind take the_octets negb]. rewrite HR. reflexivity.
  - reflexivity.
  - change (flat _) with (Cons 0x30 [Prim 2 (der_uint n)]). specialize (HR n eq_refl). revert HR. generalize (der_uint n). intros b HR.
    cbn [members N.eqb Pos.eqb obind take the_octets negb]. rewrite HR. reflexivity.
  - reflexivity.
Qed.
Print Assumptions C56_constraints.
