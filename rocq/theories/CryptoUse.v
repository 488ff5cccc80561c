(** CryptoUse.v -- commands change the state of the crypto back end only by calling its
    operations.  So whatever all of these operations keep, every command keeps. *)
From Verif Require Import Base Errors Types StateOps Env Wire Instance Commands X509 X509Cert Lib Spec Exec.
Open Scope N_scope.
Open Scope dpe_scope.

(** ** Specification *)

(** Any sequence of calls of the back end, with any arguments and any results. *)
Inductive call {C} (co : crypto_ops C) : C -> C -> Prop :=
| call_rand n c r c' : co_rand_bytes co n c = (r, c') -> call co c c'
| call_hasher c r c' : co_hasher co c = (r, c') -> call co c c'
| call_initialize c r c' : co_hash_initialize co c = (r, c') -> call co c c'
| call_update b c r c' : co_hash_update co b c = (r, c') -> call co c c'
| call_finish c r c' : co_hash_finish co c = (r, c') -> call co c c'
| call_cdi d i c r c' : co_derive_cdi co d i c = (r, c') -> call co c c'
| call_key l i c r c' : co_derive_key_pair co l i c = (r, c') -> call co c c'
| call_signer m c r c' : co_signer_sign co m c = (r, c') -> call co c c'
| call_public c r c' : co_signer_public_key co c = (r, c') -> call co c c'
| call_exported d i c r c' : co_derive_exported_cdi co d i c = (r, c') -> call co c c'
| call_key_exported h l i c r c' : co_derive_key_pair_exported co h l i c = (r, c') -> call co c c'
| call_alias m c r c' : co_sign_with_alias co m c = (r, c') -> call co c c'.
Inductive uses {C} (co : crypto_ops C) : C -> C -> Prop :=
| uses_none c : uses co c c
| uses_call c c1 c2 : call co c c1 -> uses co c1 c2 -> uses co c c2.

Section Uses.
  Context {C P : Type}.
  Variable co : crypto_ops C.
  Notation world := (world C P).

  Lemma uses_trans c1 c2 c3 : uses co c1 c2 -> uses co c2 c3 -> uses co c1 c3.
  Proof. induction 1 as [c|c c' c'' H H' IH]; [auto|]. intros X. econstructor; [exact H|auto]. Qed.
  Lemma uses_one c c' : call co c c' -> uses co c c'.
  Proof. intros H. econstructor; [exact H|constructor]. Qed.
  (** What every call keeps is kept. *)
  Lemma uses_keeps (I : C -> Prop) : (forall c c', call co c c' -> I c -> I c') -> forall c c', uses co c c' -> I c -> I c'.
  Proof. intros H c c' U. induction U; eauto. Qed.

  (** ** Computations *)

  Definition through {A} (m : M C P A) : Prop := forall w r w', m w = (r, w') -> uses co (w_c w) (w_c w').
  Definition calling {A} (f : C -> (A + crypto_error) * C) : Prop := forall c r c', f c = (r, c') -> uses co c c'.

  Lemma through_same {A} (m : M C P A) : (forall w, w_c (snd (m w)) = w_c w) -> through m.
  Proof. intros H w r w' E. specialize (H w). rewrite E in H. cbn [snd] in H. rewrite H. constructor. Qed.
  Lemma through_bind {A B} (m : M C P A) (f : A -> M C P B) : through m -> (forall a, through (f a)) -> through (bind m f).
  Proof.
    intros Hm Hf w r w' H. apply bind_inv in H as [(a & w1 & E & H)|[(e & E & _)|(k & E & _)]].
    - eapply uses_trans; [exact (Hm _ _ _ E)|exact (Hf _ _ _ _ H)].
    - exact (Hm _ _ _ E).
    - exact (Hm _ _ _ E).
  Qed.
  Lemma through_ret {A} (a : A) : through (ret a).
  Proof. apply through_same. reflexivity. Qed.
  Lemma through_fail {A} e : through (@fail C P A e).
  Proof. apply through_same. reflexivity. Qed.
  Lemma through_lift {A} (x : result A) : through (lift x).
  Proof. apply through_same. reflexivity. Qed.
  Lemma through_get_st : through get_st.
  Proof. apply through_same. reflexivity. Qed.
  Lemma through_put_st s : through (put_st s).
  Proof. apply through_same. reflexivity. Qed.
  Lemma through_read {A} (f : world -> A) : through (fun w => (Ok (f w), w)).
  Proof. apply through_same. reflexivity. Qed.
  Lemma through_write_out o b : through (write_out o b).
  Proof. apply through_same. intros w. unfold write_out. destruct (Nat.leb _ _); reflexivity. Qed.
  Lemma through_platform {A} (f : P -> (A + platform_error) * P) : through (platform f).
  Proof. apply through_same. intros w. unfold platform. destruct (f (w_p w)) as [[a|e] p]; reflexivity. Qed.
  Lemma through_crypto {A} (f : C -> (A + crypto_error) * C) : calling f -> through (crypto f).
  Proof.
    intros H w r w' E. unfold crypto in E. destruct (f (w_c w)) as [[a|e] c] eqn:Ef; apply (f_equal snd) in E; cbn [snd] in E; subst w';
      exact (H _ _ _ Ef).
  Qed.
  Lemma calling_seq {A B} (m : C -> (A + crypto_error) * C) (f : A -> C -> (B + crypto_error) * C) :
    calling m -> (forall a, calling (f a)) -> calling (cseq C m f).
  Proof.
    intros Hm Hf c r c' E. unfold cseq in E. destruct (m c) as [[a|e] c1] eqn:Em.
    - eapply uses_trans; [exact (Hm _ _ _ Em)|exact (Hf _ _ _ _ E)].
    - apply (f_equal snd) in E. cbn [snd] in E. subst c'. exact (Hm _ _ _ Em).
  Qed.
  Lemma calling_const {A} (r : A + crypto_error) : calling (fun c => (r, c)).
  Proof. intros c x c' E. apply (f_equal snd) in E. cbn [snd] in E. subst. constructor. Qed.

  Lemma c_rand n : calling (co_rand_bytes co n).
  Proof. intros c r c' E. eapply uses_one, call_rand; exact E. Qed.
  Lemma c_hasher : calling (co_hasher co).
  Proof. intros c r c' E. eapply uses_one, call_hasher; exact E. Qed.
  Lemma c_initialize : calling (co_hash_initialize co).
  Proof. intros c r c' E. eapply uses_one, call_initialize; exact E. Qed.
  Lemma c_update b : calling (co_hash_update co b).
  Proof. intros c r c' E. eapply uses_one, call_update; exact E. Qed.
  Lemma c_finish : calling (co_hash_finish co).
  Proof. intros c r c' E. eapply uses_one, call_finish; exact E. Qed.
  Lemma c_cdi d i : calling (co_derive_cdi co d i).
  Proof. intros c r c' E. eapply uses_one, call_cdi; exact E. Qed.
  Lemma c_key l i : calling (co_derive_key_pair co l i).
  Proof. intros c r c' E. eapply uses_one, call_key; exact E. Qed.
  Lemma c_sign m : calling (co_signer_sign co m).
  Proof. intros c r c' E. eapply uses_one, call_signer; exact E. Qed.
  Lemma c_public : calling (co_signer_public_key co).
  Proof. intros c r c' E. eapply uses_one, call_public; exact E. Qed.
  Lemma c_exported d i : calling (co_derive_exported_cdi co d i).
  Proof. intros c r c' E. eapply uses_one, call_exported; exact E. Qed.
  Lemma c_key_exported h l i : calling (co_derive_key_pair_exported co h l i).
  Proof. intros c r c' E. eapply uses_one, call_key_exported; exact E. Qed.
  Lemma c_alias m : calling (co_sign_with_alias co m).
  Proof. intros c r c' E. eapply uses_one, call_alias; exact E. Qed.
End Uses.

Ltac calling_auto :=
  repeat match goal with
    | |- calling _ (cseq _ _ _) => apply calling_seq; [|intros]
    | |- calling _ (co_rand_bytes _ _) => apply c_rand
    | |- calling _ (co_hasher _) => apply c_hasher
    | |- calling _ (co_hash_initialize _) => apply c_initialize
    | |- calling _ (co_hash_update _ _) => apply c_update
    | |- calling _ (co_hash_finish _) => apply c_finish
    | |- calling _ (co_derive_cdi _ _ _) => apply c_cdi
    | |- calling _ (co_derive_key_pair _ _ _) => apply c_key
    | |- calling _ (co_signer_sign _ _) => apply c_sign
    | |- calling _ (co_signer_public_key _) => apply c_public
    | |- calling _ (co_derive_exported_cdi _ _ _) => apply c_exported
    | |- calling _ (co_derive_key_pair_exported _ _ _ _) => apply c_key_exported
    | |- calling _ (co_sign_with_alias _ _) => apply c_alias
    | |- calling _ (fun c => (_, c)) => apply calling_const
    | |- calling _ (match ?x with _ => _ end) => destruct x
    end.
Ltac through_auto :=
  repeat match goal with
    | |- through _ (bind _ _) => apply through_bind; [|intros]
    | |- through _ (ret _) => apply through_ret
    | |- through _ (fail _) => apply through_fail
    | |- through _ (lift _) => apply through_lift
    | |- through _ get_st => apply through_get_st
    | |- through _ (put_st _) => apply through_put_st
    | |- through _ (write_out _ _) => apply through_write_out
    | |- through _ (platform _) => apply through_platform
    | |- through _ (crypto _) => apply through_crypto; calling_auto
    | |- through _ (fun w => (Ok _, w)) => apply through_read
    | |- through _ (match ?x with _ => _ end) => destruct x
    | |- through _ (let _ := _ in _) => cbv zeta
    | H : through _ _ |- _ => exact H
    | H : forall _, through _ _ |- _ => apply H
    end.

(** ** The writer *)

Section Writer.
  Variable cf : config.
  Variable crit : bool.
  Context {C : Type}.
  Variable co : crypto_ops C.
  Variable cb : sign_data -> bool -> C -> (signature + crypto_error) * C.
  Hypothesis Hcb : forall m b, calling co (cb m b).

  Definition wusing {A} (m : W C A) : Prop := forall w r w', m w = (r, w') -> uses co (cw_c C w) (cw_c C w').
  Lemma wusing_same {A} (m : W C A) : (forall w, cw_c C (snd (m w)) = cw_c C w) -> wusing m.
  Proof. intros H w r w' E. specialize (H w). rewrite E in H. cbn [snd] in H. rewrite H. constructor. Qed.
  Lemma wusing_bind {A B} (m : W C A) (f : A -> W C B) : wusing m -> (forall a, wusing (f a)) -> wusing (wbind C m f).
  Proof.
    intros Hm Hf w r w' E. unfold wbind in E. destruct (m w) as [[a|e|k] w1] eqn:Em.
    - eapply uses_trans; [exact (Hm _ _ _ Em)|exact (Hf _ _ _ _ E)].
    - apply (f_equal snd) in E. cbn [snd] in E. subst w'. exact (Hm _ _ _ Em).
    - apply (f_equal snd) in E. cbn [snd] in E. subst w'. exact (Hm _ _ _ Em).
  Qed.
  Lemma wusing_ret {A} (a : A) : wusing (wret C a).
  Proof. apply wusing_same. reflexivity. Qed.
  Lemma wusing_lift {A} (r : result A) : wusing (wlift C r).
  Proof. apply wusing_same. reflexivity. Qed.
  Lemma wusing_seq l : Forall wusing l -> wusing (seq_of C l).
  Proof.
    unfold seq_of. assert (K : forall l m, wusing m -> Forall wusing l -> wusing (fold_left (wadd C) l m)).
    { clear l. induction l as [|x l IH]; intros m Hm F; cbn [fold_left]; [exact Hm|]. inversion F as [|? ? F1 F2]; subst.
      apply IH; [|exact F2]. apply wusing_bind; [exact Hm|]. intros a. apply wusing_bind; [exact F1|]. intros b. apply wusing_ret. }
    intros F. apply K; [apply wusing_ret|exact F].
  Qed.
  Lemma wusing_bytes b : wusing (encode_bytes C b).
  Proof. apply wusing_same. reflexivity. Qed.
  Lemma wusing_size n : wusing (encode_size_field C n).
  Proof.
    unfold encode_size_field. cbv zeta. destruct (N.eqb _ 1).
    - apply wusing_bind; [apply wusing_bytes|]. intros. apply wusing_ret.
    - apply wusing_bind; [apply wusing_bytes|]. intros. apply wusing_bind; [|intros; apply wusing_ret].
      apply wusing_seq. apply Forall_forall. intros m Hm. apply in_map_iff in Hm as (i & <- & _). apply wusing_bytes.
  Qed.
  Lemma wusing_push n : wusing (push_backtrack C n).
  Proof. apply wusing_same. intros w. unfold push_backtrack. destruct (Nat.ltb _ _); reflexivity. Qed.
  Lemma wusing_pop n : wusing (pop_backtrack C n).
  Proof.
    apply wusing_same. intros w. unfold pop_backtrack. destruct (cw_saved C w); [|reflexivity]. destruct (cw_back C w) as [|[a b] l]; [reflexivity|].
    destruct (negb _); reflexivity.
  Qed.
  Lemma wusing_start : wusing (start_backtrack C).
  Proof. apply wusing_same. intros w. unfold start_backtrack. destruct (cw_saved C w); reflexivity. Qed.
  Lemma wusing_end : wusing (end_backtrack C).
  Proof. apply wusing_same. intros w. unfold end_backtrack. destruct (cw_saved C w); reflexivity. Qed.
  Lemma wusing_check : wusing (check_not_truncated C).
  Proof. apply wusing_same. intros w. unfold check_not_truncated. destruct (N.ltb _ _); reflexivity. Qed.
  Lemma wusing_check_no : wusing (check_no_backtracks C).
  Proof. apply wusing_same. intros w. unfold check_no_backtracks. destruct (cw_back C w); reflexivity. Qed.
  Lemma wusing_get_csr : wusing (get_csr C).
  Proof. apply wusing_same. intros w. unfold get_csr. destruct (cw_csr C w); reflexivity. Qed.
  Lemma wusing_set_csr r : wusing (set_csr C r).
  Proof. apply wusing_same. reflexivity. Qed.
  Lemma wusing_sign a b d : wusing (call_sign C cb a b d).
  Proof.
    intros w r w' E. unfold call_sign in E. destruct (_ && _)%bool.
    - cbv zeta in E. destruct (cb _ _ _) as [[g|e] c] eqn:Ec; apply (f_equal snd) in E; cbn [snd] in E; subst w'; exact (Hcb _ _ _ _ _ Ec).
    - apply (f_equal snd) in E. cbn [snd] in E. subst w'. constructor.
  Qed.
End Writer.

Ltac wusing_step :=
  lazymatch goal with
  | |- wusing _ (wbind _ _ _) => apply wusing_bind; [|intros]
  | |- wusing _ (wadd _ _ _) => unfold wadd
  | |- wusing _ (wret _ _) => apply wusing_ret
  | |- wusing _ (wlift _ _) => apply wusing_lift
  | |- wusing _ (seq_of _ _) => apply wusing_seq
  | |- Forall _ (_ ++ _) => apply Forall_app; split
  | |- Forall _ (_ :: _) => constructor
  | |- Forall _ [] => constructor
  | |- Forall _ (match ?x with _ => _ end) => destruct x
  | |- wusing _ (encode_bytes _ _) => apply wusing_bytes
  | |- wusing _ (encode_byte _ _) => apply wusing_bytes
  | |- wusing _ (encode_tag_field _ _) => apply wusing_bytes
  | |- wusing _ (encode_size_field _ _) => apply wusing_size
  | |- wusing _ (push_backtrack _ _) => apply wusing_push
  | |- wusing _ (pop_backtrack _ _) => apply wusing_pop
  | |- wusing _ (start_backtrack _) => apply wusing_start
  | |- wusing _ (end_backtrack _) => apply wusing_end
  | |- wusing _ (check_not_truncated _) => apply wusing_check
  | |- wusing _ (check_no_backtracks _) => apply wusing_check_no
  | |- wusing _ (get_csr _) => apply wusing_get_csr
  | |- wusing _ (set_csr _ _) => apply wusing_set_csr
  | |- wusing _ (match ?x with _ => _ end) => destruct x
  | |- wusing _ (let _ := _ in _) => cbv zeta
  end.
Ltac wusing_auto := repeat wusing_step.

Section Encoders.
  Variable cf : config.
  Variable crit : bool.
  Context {C : Type}.
  Variable co : crypto_ops C.
  Variable cb : sign_data -> bool -> C -> (signature + crypto_error) * C.
  Hypothesis Hcb : forall m b, calling co (cb m b).
  Notation wusing := (wusing co).

  Lemma wu_tlv t v : wusing (encode_tlv C t v).
  Proof. unfold encode_tlv. wusing_auto. Qed.
  Lemma wu_int l b : wusing (encode_integer_bytes C l b).
  Proof. unfold encode_integer_bytes. wusing_auto. Qed.
  Lemma wu_header o c n : wusing (encode_extension_header C o c n).
  Proof. unfold encode_extension_header, encode_oid, encode_tlv. wusing_auto. Qed.
  Lemma wu_rdn n : wusing (encode_rdn C n).
  Proof. unfold encode_rdn, encode_rdn_string, encode_oid, encode_tlv. wusing_auto. Qed.
  Lemma wu_alg : wusing (encode_sig_alg_id cf C).
  Proof. unfold encode_sig_alg_id, encode_oid, encode_tlv. wusing_auto. Qed.
  Lemma wu_bits g : wusing (encode_signature_bit_string cf C g).
  Proof.
    unfold encode_signature_bit_string, encode_ecdsa_sig_bit_string, encode_mldsa_sig_bit_string.
    wusing_auto; try apply wu_alg; apply wu_int.
  Qed.
  Lemma wu_octets g : wusing (encode_signature_octet_string cf C g).
  Proof.
    unfold encode_signature_octet_string, encode_ecdsa_sig_octet_string. wusing_auto; try apply wu_alg; try apply wu_int. apply wu_tlv.
  Qed.
  Lemma wu_spki pk : wusing (encode_spki cf C pk).
  Proof.
    unfold encode_spki, encode_ecdsa_spki, encode_mldsa_spki, encode_ec_pub_alg_id, encode_oid, encode_tlv. wusing_auto; apply wu_alg.
  Qed.
  Lemma wu_tcb t r : wusing (encode_tcb_info cf C t r).
  Proof. unfold encode_tcb_info, encode_fwid, encode_integer, encode_oid. wusing_auto; try apply wu_int; apply wu_tlv. Qed.
  Lemma wu_nodes n l : forall it r, wusing (encode_nodes cf C n l it r).
  Proof. induction n as [|n IH]; intros it r; cbn [encode_nodes]; wusing_auto; [apply wu_tcb|apply IH]. Qed.
  Lemma wu_extensions md b : wusing (encode_extensions cf crit C md b).
  Proof.
    unfold encode_extensions, encode_size_of, encode_multi_tcb_info, encode_ueid, encode_basic_constraints, encode_key_usage,
      encode_extended_key_usage, encode_ski_extension, encode_aki_extension, encode_san_extension, encode_other_name,
      encode_other_name_value, encode_key_identifier, encode_oid.
    wusing_auto; first [apply wu_header|apply wu_tlv|apply wu_nodes].
  Qed.
  Lemma wu_backfill n : wusing (backfill C n).
  Proof. unfold backfill. wusing_auto. Qed.
  Lemma wu_tbs s i n pk md v : wusing (encode_tbs cf crit C s i n pk md v).
  Proof.
    unfold encode_tbs, encode_version, encode_integer, encode_validity. wusing_auto;
      first [apply wu_int|apply wu_alg|apply wu_rdn|apply wu_spki|apply wu_extensions|apply wu_backfill|apply wu_tlv].
  Qed.
  Lemma wu_info pk n md : wusing (encode_certification_request_info cf crit C pk n md).
  Proof.
    unfold encode_certification_request_info, encode_integer, encode_attributes, encode_size_of, encode_oid. wusing_auto;
      first [apply wu_int|apply wu_alg|apply wu_rdn|apply wu_spki|apply wu_extensions|apply wu_backfill|apply wu_tlv].
  Qed.
  Lemma wu_payload m d : wusing m -> wusing (encode_signed_payload cf C cb m d).
  Proof.
    intros H. unfold encode_signed_payload. wusing_auto; first [exact H|apply (wusing_sign co cb Hcb)|apply wu_bits|apply wu_backfill].
  Qed.
  Lemma wu_certificate s i n pk md v : wusing (encode_certificate cf crit C cb s i n pk md v).
  Proof. unfold encode_certificate. wusing_auto. apply wu_payload, wu_tbs. Qed.
  Lemma wu_cms pk n md sid : wusing (encode_cms cf crit C cb pk n md sid).
  Proof.
    unfold encode_cms, encode_encapsulated_content_info, encode_csr, encode_signer_info, encode_cms_version, encode_signer_identifier,
      encode_issuer_and_serial, encode_subject_key_identifier, encode_hash_alg_id, encode_oid, encode_integer.
    wusing_auto; first [apply wu_int|apply wu_tlv|apply wu_octets|apply (wusing_sign co cb Hcb)|apply wu_payload, wu_info].
  Qed.
End Encoders.

(** ** Commands *)

Section Cmds.
  Variable cf : config.
  Context {C P : Type}.
  Variable co : crypto_ops C.
  Variable po : platform_ops P.
  Notation through := (@through C P co).

  Lemma u_gen_loop n : through (gen_handle_loop C P co n).
  Proof. induction n as [|n IH]; cbn [gen_handle_loop]; through_auto. Qed.
  Lemma u_gen : through (generate_new_handle C P co).
  Proof. apply u_gen_loop. Qed.
  Lemma u_roll c : through (roll_handle C P co c).
  Proof. unfold roll_handle. through_auto. apply u_gen. Qed.
  Lemma u_updates l : through (hash_updates C P co l).
  Proof. induction l as [|b l IH]; cbn [hash_updates]; through_auto. Qed.
  Lemma u_hash_all l : through (hash_all C P co l).
  Proof. unfold hash_all. through_auto. apply u_updates. Qed.
  Lemma u_add c m l : through (add_tci_measurement C P co c m l).
  Proof. unfold add_tci_measurement. through_auto. apply u_hash_all. Qed.
  Lemma u_chain_call o s b : through (cert_chain_call C P po o s b).
  Proof. apply through_same. intros w. unfold cert_chain_call. destruct (po_certificate_chain _ _ _ _ _) as [[r x] p]. reflexivity. Qed.
  Lemma u_nodes n l : forall it i d, through (hash_nodes cf C P co n l it i d).
  Proof. induction n as [|n IH]; intros; cbn [hash_nodes]; through_auto; apply IH. Qed.
  Lemma u_chain n : forall o b, through (hash_cert_chain C P co po n o b).
  Proof. induction n as [|n IH]; intros; cbn [hash_cert_chain]; through_auto; first [apply u_chain_call|apply IH]. Qed.
  Lemma u_cmh i : through (compute_measurement_hash cf C P co po i).
  Proof. unfold compute_measurement_hash, internal_input_info, get_profile. through_auto; first [apply u_nodes|apply u_chain]. Qed.

  Lemma u_hash_pubkey pk : through (hash_pubkey C P co pk).
  Proof. unfold hash_pubkey. through_auto; apply u_hash_all. Qed.
  Lemma u_writer off m : wusing co m -> through (run_writer C P off m).
  Proof.
    intros H w r w' E. unfold run_writer in E. destruct (m _) as [x y] eqn:Em. apply (f_equal snd) in E. cbn [snd] in E. subst w'.
    exact (H _ _ _ Em).
  Qed.
  Lemma u_create k a off : through (create_cert cf C P co po k a off).
  Proof.
    assert (Hcb : forall d h m b, calling co (sign_cb C co k a d h m b)) by (intros; unfold sign_cb, sign_with_derived; calling_auto).
    unfold create_cert, derive_subject_key, derive_pub_key, get_subject_name, get_pubkey_serial, get_subject_key_identifier,
      generate_csr, generate_cert.
    through_auto; try first [apply u_cmh|apply u_hash_pubkey].
    - apply through_same. intros w. unfold get_authority_key_identifier. destruct (po_issuer_key_identifier _ _ _) as [[[x|e] b] p]; reflexivity.
    - apply through_same. intros w. unfold get_subject_alt_name. destruct (po_subject_alt_name _ _) as [[x|[]] p]; reflexivity.
    - apply u_writer, wu_cms, Hcb.
    - apply through_same. intros w. unfold get_issuer_name. destruct (po_issuer_name _ _ _) as [[[x|e] b] p]; reflexivity.
    - apply u_writer, wu_certificate, Hcb.
  Qed.

  (** A certificate writer that changes the back end only by calling it. *)
  Definition writer_using (cg : cert_kind -> cert_args -> nat -> state -> C -> P -> bytes -> result cert_result * C * P * bytes) : Prop :=
    forall k a off s c p o r c' p' o', cg k a off s c p o = (r, c', p', o') -> uses co c c'.
  Lemma x509_using : writer_using (x509_gen cf C P co po).
  Proof.
    intros k a off s c p o r c' p' o' E. unfold x509_gen in E. destruct (create_cert _ _ _ _ _ _ _ _ _) as [x w] eqn:Ec.
    apply u_create in Ec. apply (f_equal (fun t => snd (fst (fst t)))) in E. cbn [fst snd w_c] in *. subst c'. exact Ec.
  Qed.

  Lemma u_tmp f c : through (derive_tmp_parent C P co f c).
  Proof. unfold derive_tmp_parent. through_auto. apply u_gen. Qed.

  Variable cg : cert_kind -> cert_args -> nat -> state -> C -> P -> bytes -> result cert_result * C * P * bytes.
  Hypothesis Hcg : writer_using cg.
  Lemma u_run_cert k a off : through (run_cert C P cg k a off).
  Proof.
    intros w r w' E. unfold run_cert in E. destruct (cg _ _ _ _ _ _ _) as [[[x c] p] o] eqn:Ec. apply (f_equal snd) in E. cbn [snd] in E. subst w'.
    eapply Hcg; exact Ec.
  Qed.
  Theorem command_uses cmd loc : through (exec_command cf C P co po cg cmd loc).
  Proof.
    destruct cmd; cbn [exec_command].
    - unfold exec_get_profile, get_profile, respond. through_auto.
    - unfold exec_init, st_get, st_set, respond. through_auto. apply u_gen.
    - unfold exec_derive, derive_recursive, derive_tmp_parent, derive_export, derive_child, st_get, st_set, st_assign, st_index, respond.
      through_auto; first [apply u_add|apply u_roll|apply u_gen|apply u_run_cert].
    - unfold exec_certify, st_get, st_index, st_assign. through_auto; first [apply u_run_cert|apply u_roll].
    - unfold exec_sign, do_sign, st_get, st_index, st_assign, respond. through_auto; first [apply u_cmh|apply u_roll].
    - unfold exec_rotate, st_get, st_set, respond. through_auto. apply u_gen.
    - unfold exec_destroy, respond. through_auto.
    - unfold exec_get_chain, respond. through_auto. apply u_chain_call.
    - unfold exec_update, st_get, st_set, respond. through_auto; first [apply u_add|apply u_roll].
  Qed.
End Cmds.
