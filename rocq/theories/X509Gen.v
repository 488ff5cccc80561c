(** X509Gen.v -- creating a certificate or CSR for a context of a well-formed
    state: proofs about [create_cert] of X509Cert.v. *)
From Verif Require Import Base Errors Types StateOps Env Wire Instance Commands Lib Spec Exec Forest Contract
  Walk Measure Der DerProofs X509 X509Cert X509Run X509Spec X509Bytes X509Enc X509Tbs X509Cms X509Out X509Proper.
Open Scope N_scope.
Open Scope dpe_scope.

(** ** Computations that do not look at the response buffer *)

Section Blind.
  Context {C P : Type}.
  Notation world := (world C P).
  Definition set_out (w : world) (o : bytes) : world := mkWorld (w_st w) (w_c w) (w_p w) o.
  Definition blind {A} (m : M C P A) : Prop :=
    forall w o, m (set_out w o) = (fst (m w), set_out (snd (m w)) o) /\
                w_st (snd (m w)) = w_st w /\ w_out (snd (m w)) = w_out w.

  Lemma blind_keeps {A} (m : M C P A) : blind m -> Exec.keeps m.
  Proof. intros H w r w' E0. destruct (H w []) as (_ & A1 & A2). rewrite E0 in *. split; assumption. Qed.
  Lemma set_out_twice (w : world) o o' : set_out (set_out w o) o' = set_out w o'.
  Proof. reflexivity. Qed.
  Lemma blind_bind {A B} (m : M C P A) (f : A -> M C P B) : blind m -> (forall a, blind (f a)) -> blind (bind m f).
  Proof.
    intros H1 H2 w o. unfold bind. destruct (H1 w o) as (E1 & S1 & O1). rewrite E1.
    destruct (m w) as [[a|e|k] w1]; cbn [fst snd] in *.
    - destruct (H2 a w1 o) as (E2 & S2 & O2). rewrite E2. split; [reflexivity|]. split; congruence.
    - split; [reflexivity|]. split; assumption.
    - split; [reflexivity|]. split; assumption.
  Qed.
  Lemma blind_ret {A} (a : A) : blind (ret a).
  Proof. intros w o. repeat split. Qed.
  Lemma blind_fail {A} e : blind (@fail C P A e).
  Proof. intros w o. repeat split. Qed.
  Lemma blind_lift {A} (r : result A) : blind (lift r).
  Proof. intros w o. repeat split. Qed.
  Lemma blind_get_st : blind get_st.
  Proof. intros w o. repeat split. Qed.
  Lemma blind_crypto {A} (f : C -> (A + crypto_error) * C) : blind (crypto f).
  Proof. intros w o. unfold crypto. cbn [set_out w_c]. destruct (f (w_c w)) as [[a|e] c]; repeat split. Qed.
  Lemma blind_platform {A} (f : P -> (A + platform_error) * P) : blind (platform f).
  Proof. intros w o. unfold platform. cbn [set_out w_p]. destruct (f (w_p w)) as [[a|e] p]; repeat split. Qed.
  Lemma blind_if {A} (b : bool) (m1 m2 : M C P A) : blind m1 -> blind m2 -> blind (if b then m1 else m2).
  Proof. destruct b; auto. Qed.
  Lemma blind_read {A} (f : C -> A) : blind (fun w => (Ok (f (w_c w)), w)).
  Proof. intros w o. repeat split. Qed.
End Blind.

Ltac blind_auto :=
  repeat first
    [ apply blind_bind; [|intros ?] | apply blind_ret | apply blind_fail | apply blind_lift | apply blind_get_st
    | apply blind_crypto | apply blind_platform | apply blind_read | apply blind_if
    | match goal with |- blind (match ?x with _ => _ end) => destruct x end ].

Section Gen.
  Variable cf : config.
  Variables C P : Type.
  Variable co : crypto_ops C.
  Variable po : platform_ops P.
  Notation M := (M C P).
  Notation world := (world C P).

  Lemma blind_hash_updates l : blind (hash_updates C P co l).
  Proof. induction l; cbn [hash_updates]; blind_auto. exact IHl. Qed.
  Lemma blind_hash_all l : blind (hash_all C P co l).
  Proof. unfold hash_all. blind_auto. apply blind_hash_updates. Qed.
  Lemma blind_hash_nodes n l : forall it i d, blind (hash_nodes cf C P co n l it i d).
  Proof.
    induction n; intros; cbn [hash_nodes]; blind_auto. apply IHn.
  Qed.
  Lemma blind_chain_call off size buf : blind (cert_chain_call C P po off size buf).
  Proof.
    intros w o. unfold cert_chain_call. cbn [set_out w_p]. destruct (po_certificate_chain po off size buf (w_p w)) as [[r b] p].
    repeat split.
  Qed.
  Lemma blind_cert_chain n : forall off buf, blind (hash_cert_chain C P co po n off buf).
  Proof.
    induction n; intros; cbn [hash_cert_chain]; blind_auto; [apply blind_chain_call|apply IHn].
  Qed.
  Lemma blind_cmh i : blind (compute_measurement_hash cf C P co po i).
  Proof.
    unfold compute_measurement_hash. blind_auto; first [apply blind_hash_nodes|apply blind_cert_chain].
  Qed.
  Lemma blind_subject_key k a d : blind (derive_subject_key C P co k a d).
  Proof. unfold derive_subject_key. blind_auto. Qed.
  Lemma blind_hash_pubkey pk : blind (hash_pubkey C P co pk).
  Proof.
    unfold hash_pubkey. destruct (ecdsa_pub pk) as [[[]]|]; [apply blind_hash_all|].
    destruct pk; [apply blind_fail..|apply blind_hash_all].
  Qed.
  Lemma blind_serial pk b : blind (get_pubkey_serial C P co pk b).
  Proof.
    unfold get_pubkey_serial. apply blind_bind; [apply (blind_read (fun c => digest_alg_size (co_digest_algorithm co c)))|intros size].
    apply blind_if; [apply blind_fail|]. apply blind_bind; [apply (blind_read (co_signature_algorithm co))|intros alg].
    apply blind_if; [apply blind_fail|]. apply blind_bind; [apply blind_hash_pubkey|intros d; apply blind_lift].
  Qed.
  Lemma blind_subject_name k pk : blind (get_subject_name C P co k pk).
  Proof. unfold get_subject_name. apply blind_bind; [apply blind_serial|intros; apply blind_ret]. Qed.
  Lemma blind_ski pk : blind (get_subject_key_identifier C P co pk).
  Proof. unfold get_subject_key_identifier. blind_auto. apply blind_hash_pubkey. Qed.
  Lemma blind_aki : blind (get_authority_key_identifier C P po).
  Proof.
    intros w o. unfold get_authority_key_identifier. cbn [set_out w_p].
    destruct (po_issuer_key_identifier po _ (w_p w)) as [[[]b]p]; repeat split.
  Qed.
  Lemma blind_san : blind (get_subject_alt_name C P po).
  Proof.
    intros w o. unfold get_subject_alt_name. cbn [set_out w_p].
    destruct (po_subject_alt_name po (w_p w)) as [[o1|[]] p]; repeat split.
  Qed.
  Lemma blind_issuer : blind (get_issuer_name C P po).
  Proof.
    intros w o. unfold get_issuer_name. cbn [set_out w_p].
    destruct (po_issuer_name po _ (w_p w)) as [[[]b]p]; repeat split.
  Qed.

  (** Everything that is needed before writing. *)
  Record draft := {
    dr_idx : nat;
    dr_digest : digest;
    dr_pubkey : pubkey;
    dr_exported : option bytes;
    dr_subject : name;
    dr_ski : bytes;
    dr_aki : bytes;
    dr_san : option other_name;
    dr_validity : cert_validity;
    dr_sid : signer_identifier;
    dr_issuer : bytes
  }.
  Definition draft_of (k : cert_kind) (a : cert_args) : M draft :=
    let! s0 := get_st in
    let! idx0 := lift (get_active_context_pos s0 (ca_handle a) (ca_locality a)) in
    let! d := compute_measurement_hash cf C P co po idx0 in
    let! pk_h := derive_subject_key C P co k a d in
    let pk := fst pk_h in
    let! subject := get_subject_name C P co k pk in
    let! ski := get_subject_key_identifier C P co pk in
    let! aki := get_authority_key_identifier C P po in
    let! san := get_subject_alt_name C P po in
    let! s := get_st in
    let! idx := lift (get_active_context_pos s (ca_handle a) (ca_locality a)) in
    lift (tci_nodes_new cf idx (st_contexts s)) ;;
    let! v := platform (po_cert_validity po) in
    let! sid := platform (po_signer_identifier po) in
    let! issuer := (if kind_csr k then ret [] else get_issuer_name C P po) in
    ret {| dr_idx := idx; dr_digest := d; dr_pubkey := pk; dr_exported := snd pk_h; dr_subject := subject;
           dr_ski := ski; dr_aki := aki; dr_san := san; dr_validity := cap_validity v; dr_sid := cap_sid sid;
           dr_issuer := issuer |}.
  Definition draft_md (k : cert_kind) (a : cert_args) (s : state) (x : draft) : measurement_data :=
    {| md_start := dr_idx x; md_contexts := st_contexts s; md_label := ca_ueid a;
       md_is_ca := kind_exported k;
       md_recursive := if kind_exported k then false else sup_recursive (st_support s);
       md_ski := dr_ski x; md_aki := dr_aki x; md_san := dr_san x |}.
  Definition draft_cb (k : cert_kind) (a : cert_args) (x : draft) :=
    sign_cb C co k a (dr_digest x) (dr_exported x).
  Definition draft_write (k : cert_kind) (a : cert_args) (s : state) (x : draft) : W C N :=
    if kind_csr k
    then encode_cms cf (ca_critical a) C (draft_cb k a x) (dr_pubkey x) (dr_subject x) (draft_md k a s x) (dr_sid x)
    else encode_certificate cf (ca_critical a) C (draft_cb k a x) (firstn 20 (ds_bytes (nm_serial (dr_subject x))))
           (dr_issuer x) (dr_subject x) (dr_pubkey x) (draft_md k a s x) (dr_validity x).
  Definition draft_result (k : cert_kind) (x : draft) (n : N) : M cert_result :=
    let! n := lift (to_u32 n (if kind_csr k then CsrSizeOverflow else CertSizeOverflow)) in
    let! h :=
      (if kind_exported k then lift (ok_or (dr_exported x) (InternalError MissingExportedCdiHandle))
       else ret (repeat 0 max_exported_cdi_size)) in
    ret {| cr_size := n; cr_pubkey := dr_pubkey x; cr_exported := h |}.

  Lemma blind_draft k a : blind (draft_of k a).
  Proof.
    unfold draft_of.
    apply blind_bind; [apply blind_get_st|intros s0]. apply blind_bind; [apply blind_lift|intros idx0].
    apply blind_bind; [apply blind_cmh|intros d]. apply blind_bind; [apply blind_subject_key|intros pkh].
    apply blind_bind; [apply blind_subject_name|intros subject]. apply blind_bind; [apply blind_ski|intros ski].
    apply blind_bind; [apply blind_aki|intros aki]. apply blind_bind; [apply blind_san|intros san].
    apply blind_bind; [apply blind_get_st|intros s]. apply blind_bind; [apply blind_lift|intros idx].
    apply blind_bind; [apply blind_lift|intros _]. apply blind_bind; [apply blind_platform|intros v].
    apply blind_bind; [apply blind_platform|intros sid].
    apply blind_bind; [apply blind_if; [apply blind_ret|apply blind_issuer]|intros issuer]. apply blind_ret.
  Qed.

  Lemma hex_len l : length (hex_of l) = (length l * 2)%nat.
  Proof. induction l as [|b l IH]; [reflexivity|]. unfold hex_of in *. cbn [flat_map app length]. rewrite IH. lia. Qed.
  Lemma serial_long k pk w nm w' : get_subject_name C P co k pk w = (Ok nm, w') ->
    length (ds_bytes (nm_serial nm)) = 64%nat.
  Proof.
    unfold get_subject_name. intros H. apply bind_inv in H as [(s & w1 & H1 & H)|[(e & _ & X)|(e & _ & X)]]; [|discriminate..].
    apply ret_inv in H. destruct H as [H _]. apply ok_inj in H. subst nm. cbn [nm_serial ds_bytes].
    unfold get_pubkey_serial, bind in H1.
    destruct (Nat.ltb _ _); [discriminate|]. destruct (negb _); [discriminate|].
    destruct (hash_pubkey C P co pk w) as [[d| |] w2]; [|discriminate..]. unfold lift, write_hex_str in H1.
    destruct (Nat.ltb_spec (length (repeat 0 (max_hash_size * 2))) (length (digest_bytes d) * 2)) as [|L]; [discriminate|].
    apply (f_equal fst) in H1. cbn [fst] in H1. apply ok_inj in H1. rewrite <- H1.
    rewrite firstn_length, app_length, skipn_length, repeat_length, hex_len.
    unfold max_hash_size in *. rewrite repeat_length in L. lia.
  Qed.

  Lemma bind_ext {A B} (m : M A) (f g : A -> M B) w :
    (forall a w', m w = (Ok a, w') -> f a w' = g a w') -> bind m f w = bind m g w.
  Proof. intros H. unfold bind. destruct (m w) as [[a|e|k] w']; auto. Qed.

  Lemma create_cert_draft k a off w : create_cert cf C P co po k a off w =
    (let! x := draft_of k a in
     let! s := get_st in
     let! n := run_writer C P off (draft_write k a s x) in
     draft_result k x n) w.
  Proof.
    unfold create_cert, draft_of.
    rewrite bind_assoc. apply bind_ext; intros s0 w0 _. rewrite bind_assoc; apply bind_ext; intros idx0 w1 _.
    rewrite bind_assoc. apply bind_ext; intros d w2 _. rewrite bind_assoc; apply bind_ext; intros pkh w3 _.
    rewrite bind_assoc. apply bind_ext; intros subject w4 HS. rewrite bind_assoc; apply bind_ext; intros ski w5 _.
    rewrite bind_assoc. apply bind_ext; intros aki w6 _. rewrite bind_assoc; apply bind_ext; intros san w7 _.
    rewrite bind_assoc. apply bind_ext; intros s w8 ES. rewrite bind_assoc; apply bind_ext; intros idx w9 E9.
    rewrite bind_assoc. apply bind_ext; intros u10 w10 E10. rewrite bind_assoc; apply bind_ext; intros v w11 E11.
    rewrite bind_assoc. apply bind_ext; intros sid w12 E12.
    injection ES as <- <-. apply lift_inv in E9 as [_ ->]. apply lift_inv in E10 as [_ ->].
    apply (keeps_platform (po_cert_validity po)) in E11 as [K1 _]. apply (keeps_platform (po_signer_identifier po)) in E12 as [K2 _].
    apply serial_long in HS.
    unfold draft_result in *.
    destruct k; cbn [kind_csr kind_exported] in *.
    - rewrite !bind_assoc. apply bind_ext. intros issuer w13 HI. pose proof (blind_keeps _ blind_issuer _ _ _ HI) as [K3 _].
      rewrite !bind_ret, bind_get_st, K3, K2, K1. unfold generate_cert. rewrite HS. cbn [Nat.ltb Nat.leb].
      rewrite !bind_assoc. reflexivity.
    - rewrite bind_assoc, bind_ret, bind_ret, bind_get_st, K2, K1. unfold generate_csr. rewrite !bind_assoc. reflexivity.
    - rewrite !bind_assoc. apply bind_ext. intros issuer w13 HI. pose proof (blind_keeps _ blind_issuer _ _ _ HI) as [K3 _].
      rewrite !bind_ret, bind_get_st, K3, K2, K1. unfold generate_cert. rewrite HS. cbn [Nat.ltb Nat.leb].
      rewrite !bind_assoc. reflexivity.
  Qed.

  (** *** The environment calls of a draft *)

  Definition drafted (k : cert_kind) (a : cert_args) (x : draft) (w w' : world) : Prop :=
    exists w1 w2 w3 w4 w5 w6 w7 w8 v sid,
      get_active_context_pos (w_st w) (ca_handle a) (ca_locality a) = Ok (dr_idx x) /\
      compute_measurement_hash cf C P co po (dr_idx x) w = (Ok (dr_digest x), w1) /\
      derive_subject_key C P co k a (dr_digest x) w1 = (Ok (dr_pubkey x, dr_exported x), w2) /\
      get_subject_name C P co k (dr_pubkey x) w2 = (Ok (dr_subject x), w3) /\
      get_subject_key_identifier C P co (dr_pubkey x) w3 = (Ok (dr_ski x), w4) /\
      get_authority_key_identifier C P po w4 = (Ok (dr_aki x), w5) /\
      get_subject_alt_name C P po w5 = (Ok (dr_san x), w6) /\
      platform (po_cert_validity po) w6 = (Ok v, w7) /\ dr_validity x = cap_validity v /\
      platform (po_signer_identifier po) w7 = (Ok sid, w8) /\ dr_sid x = cap_sid sid /\
      (if kind_csr k then ret [] else get_issuer_name C P po) w8 = (Ok (dr_issuer x), w').

  Lemma draft_inv k a w x w' : draft_of k a w = (Ok x, w') ->
    drafted k a x w w' /\ w_st w' = w_st w /\ w_out w' = w_out w.
  Proof.
    intros H. split; [|exact (blind_keeps _ (blind_draft k a) _ _ _ H)].
    unfold draft_of in H. rewrite bind_get_st in H.
    apply bind_lift_inv in H as [(idx0 & E0 & H)|[(e & _ & X & _)|(e & _ & X & _)]]; [|discriminate..].
    apply bind_inv in H as [(d & w1 & E1 & H)|[(e & _ & X)|(e & _ & X)]]; [|discriminate..].
    apply bind_inv in H as [([pk h] & w2 & E2 & H)|[(e & _ & X)|(e & _ & X)]]; [|discriminate..].
    cbv zeta in H. cbn [fst snd] in H.
    apply bind_inv in H as [(subject & w3 & E3 & H)|[(e & _ & X)|(e & _ & X)]]; [|discriminate..].
    apply bind_inv in H as [(ski & w4 & E4 & H)|[(e & _ & X)|(e & _ & X)]]; [|discriminate..].
    apply bind_inv in H as [(aki & w5 & E5 & H)|[(e & _ & X)|(e & _ & X)]]; [|discriminate..].
    apply bind_inv in H as [(san & w6 & E6 & H)|[(e & _ & X)|(e & _ & X)]]; [|discriminate..].
    rewrite bind_get_st in H.
    apply bind_lift_inv in H as [(idx & E7 & H)|[(e & _ & X & _)|(e & _ & X & _)]]; [|discriminate..].
    apply bind_lift_inv in H as [(u & _ & H)|[(e & _ & X & _)|(e & _ & X & _)]]; [|discriminate..].
    apply bind_inv in H as [(v & w7 & E8 & H)|[(e & _ & X)|(e & _ & X)]]; [|discriminate..].
    apply bind_inv in H as [(sid & w8 & E9 & H)|[(e & _ & X)|(e & _ & X)]]; [|discriminate..].
    apply bind_inv in H as [(issuer & w9 & E10 & H)|[(e & _ & X)|(e & _ & X)]]; [|discriminate..].
    apply ret_inv in H as [H ->]. apply ok_inj in H. subst x.
    assert (EI : w_st w6 = w_st w).
    { rewrite (proj1 (blind_keeps _ blind_san _ _ _ E6)), (proj1 (blind_keeps _ blind_aki _ _ _ E5)),
        (proj1 (blind_keeps _ (blind_ski _) _ _ _ E4)), (proj1 (blind_keeps _ (blind_subject_name _ _) _ _ _ E3)),
        (proj1 (blind_keeps _ (blind_subject_key _ _ _) _ _ _ E2)). apply (blind_keeps _ (blind_cmh _) _ _ _ E1). }
    rewrite EI, E0 in E7. apply ok_inj in E7. subst idx.
    exists w1, w2, w3, w4, w5, w6, w7, w8, v, sid. cbn. auto 20.
  Qed.

  (** *** Every supplied value consists of bytes *)

  Lemma hex_char_byte n : n < 16 -> hex_char n < 128.
  Proof. intros H. unfold hex_char. destruct (N.ltb_spec n 10); lia. Qed.
  Lemma hex_bytes l : all_bytes l -> Forall (fun b => 48 <= b < 128) (hex_of l).
  Proof.
    induction 1 as [|b l Hb HF IH]; [constructor|]. unfold hex_of. cbn [flat_map app]. unfold is_byte in Hb.
    assert (H1 : b / 16 < 16) by (apply N.div_lt_upper_bound; lia).
    assert (H2 : b mod 16 < 16) by (apply N.mod_upper_bound; lia).
    constructor; [|constructor; [|exact IH]]; unfold hex_char.
    - destruct (N.ltb_spec (b / 16) 10); lia.
    - destruct (N.ltb_spec (b mod 16) 10); lia.
  Qed.
  Lemma digest_bytes_bytes d : all_bytes (digest_bytes d).
  Proof. destruct d; apply all_bytes_to_buf. Qed.
  Lemma digest_length d : length (digest_bytes d) = 32%nat \/ length (digest_bytes d) = 48%nat.
  Proof. destruct d; cbn [digest_bytes]; rewrite length_to_buf; auto. Qed.

  (** The serial number in the subject name is the beginning of the hexadecimal
      form of a digest of the public key. *)
  Lemma subject_spec k pk w nm w' : get_subject_name C P co k pk w = (Ok nm, w') ->
    exists dg w1, hash_pubkey C P co pk w = (Ok dg, w1) /\ w' = w1 /\
      nm = {| nm_cn := PrintableString (if kind_exported k then str_dpe_exported else str_dpe_leaf);
              nm_serial := PrintableString (firstn 64 (hex_of (digest_bytes dg))) |}.
  Proof.
    unfold get_subject_name. intros H. apply bind_inv in H as [(s & w1 & H1 & H)|[(e & _ & X)|(e & _ & X)]]; [|discriminate..].
    apply ret_inv in H. destruct H as [H ->]. apply ok_inj in H. subst nm.
    unfold get_pubkey_serial, bind in H1.
    destruct (Nat.ltb _ _); [discriminate|]. destruct (negb _); [discriminate|].
    destruct (hash_pubkey C P co pk w) as [[d| |] w2] eqn:EH; [|discriminate..]. unfold lift, write_hex_str in H1.
    destruct (Nat.ltb_spec (length (repeat 0 (max_hash_size * 2))) (length (digest_bytes d) * 2)) as [|L]; [discriminate|].
    pose proof (f_equal fst H1) as H2. pose proof (f_equal snd H1) as H3. cbn [fst snd] in H2, H3. apply ok_inj in H2.
    subst w2 s. exists d, w1. split; [reflexivity|]. split; [reflexivity|]. do 2 f_equal.
    rewrite firstn_app, hex_len.
    replace (64 - length (digest_bytes d) * 2)%nat with 0%nat by (destruct (digest_length d); lia).
    rewrite firstn_O, app_nil_r. reflexivity.
  Qed.
  Lemma subject_length dg : length (firstn 64 (hex_of (digest_bytes dg))) = 64%nat.
  Proof. rewrite firstn_length, hex_len. destruct (digest_length dg); lia. Qed.

  Lemma Forall_firstn {A} (Q : A -> Prop) n l : Forall Q l -> Forall Q (firstn n l).
  Proof. intros H. revert n. induction H; intros [|n]; cbn [firstn]; constructor; auto. Qed.
  Lemma to_vec_bytes n l : all_bytes (to_vec n l).
  Proof.
    unfold to_vec. generalize (firstn n l). induction l0; cbn [map]; constructor; [|assumption].
    unfold is_byte. apply N.mod_upper_bound. discriminate.
  Qed.
  Lemma to_vec_length n l : (length (to_vec n l) <= n)%nat.
  Proof. unfold to_vec. rewrite map_length, firstn_length. lia. Qed.

  Record draft_bytes (k : cert_kind) (x : draft) : Prop := {
    db_subject : exists dg, dr_subject x =
      {| nm_cn := PrintableString (if kind_exported k then str_dpe_exported else str_dpe_leaf);
         nm_serial := PrintableString (firstn 64 (hex_of (digest_bytes dg))) |};
    db_ski : all_bytes (dr_ski x) /\ length (dr_ski x) = 20%nat;
    db_aki : all_bytes (dr_aki x) /\ length (dr_aki x) = 20%nat;
    db_san : match dr_san x with
             | Some o => all_bytes (on_oid o) /\ all_bytes (on_value o) /\ (length (on_value o) <= 128)%nat
             | None => True end;
    db_validity : validity_bytes (dr_validity x) /\ (length (cv_not_before (dr_validity x)) <= 24)%nat /\
                  (length (cv_not_after (dr_validity x)) <= 24)%nat;
    db_sid : match dr_sid x with
             | IssuerAndSerialNumber i n => all_bytes i /\ (length i <= 128)%nat /\ all_bytes n /\ (length n <= 20)%nat
             | SubjectKeyIdentifier kid => all_bytes kid /\ (length kid <= 20)%nat end;
    db_issuer : all_bytes (dr_issuer x) /\ (length (dr_issuer x) <= 128)%nat
  }.
  Lemma drafted_bytes k a x w w' : drafted k a x w w' -> draft_bytes k x.
  Proof.
    intros (w1 & w2 & w3 & w4 & w5 & w6 & w7 & w8 & v & sid & _ & _ & _ & E3 & E4 & E5 & E6 & _ & EV & _ & ES & EI).
    split.
    - apply subject_spec in E3 as (dg & _ & _ & _ & ->). exists dg. reflexivity.
    - unfold get_subject_key_identifier in E4. apply bind_inv in E4 as [(d & u & _ & H)|[(e & _ & X)|(e & _ & X)]]; [|discriminate..].
      destruct (Nat.ltb_spec (length (digest_bytes d)) max_key_identifier_size) as [|L]; [discriminate|].
      apply ret_inv in H as [H _]. apply ok_inj in H. rewrite H. split.
      + apply Forall_firstn, digest_bytes_bytes.
      + rewrite firstn_length. unfold max_key_identifier_size in *. lia.
    - unfold get_authority_key_identifier in E5. destruct (po_issuer_key_identifier po _ _) as [[[u|u] b] p]; [|discriminate].
      pose proof (f_equal fst E5) as H. cbn [fst] in H. apply ok_inj in H. rewrite <- H. split; [apply all_bytes_to_buf|apply length_to_buf].
    - unfold get_subject_alt_name in E6. destruct (po_subject_alt_name po _) as [[o|e] p].
      + pose proof (f_equal fst E6) as H. cbn [fst] in H. apply ok_inj in H. rewrite <- H. cbn [cap_other_name on_oid on_value].
        split; [apply to_vec_bytes|]. split; [apply to_vec_bytes|apply to_vec_length].
      + destruct e; try discriminate. pose proof (f_equal fst E6) as H. cbn [fst] in H. apply ok_inj in H. rewrite <- H. exact Logic.I.
    - rewrite EV. cbn [cap_validity cv_not_before cv_not_after validity_bytes]. split; [split; apply to_vec_bytes|].
      split; apply to_vec_length.
    - rewrite ES. destruct sid; cbn [cap_sid]; repeat (split; [first [apply to_vec_bytes|apply to_vec_length]|]);
        first [apply to_vec_bytes|apply to_vec_length].
    - destruct (kind_csr k).
      + apply ret_inv in EI as [H _]. apply ok_inj in H. rewrite H. split; [constructor|cbn; lia].
      + unfold get_issuer_name in EI. destruct (po_issuer_name po _ _) as [[[n|n] b] p]; [|discriminate].
        destruct (N.ltb_spec (N.of_nat max_issuer_name_size) n) as [|L]; [discriminate|].
        pose proof (f_equal fst EI) as H. cbn [fst] in H. apply ok_inj in H. rewrite <- H. split.
        * apply Forall_firstn, all_bytes_to_buf.
        * rewrite firstn_length, length_to_buf. unfold max_issuer_name_size in *. lia.
  Qed.
End Gen.
