(** X509Tbs.v -- what the certificate, request and CMS encoders of X509.v write:
    the bodies to be signed, the signed structures, and the signing calls. *)
From Verif Require Import Base Errors Types StateOps Env Lib Der DerProofs X509 X509Run X509Spec X509Bytes X509Enc.
Open Scope N_scope.

(** Evaluates the first step of a writer that is not yet known. *)
Ltac inner x :=
  lazymatch x with
  | context [match ?y with (_, _) => _ end] => inner y
  | _ => destruct x as [[?|?|?] ?]; try reflexivity
  end.
Ltac step := match goal with |- context [match ?x with (_, _) => _ end] => inner x end.

(** ** Bodies that do not sign *)

Definition rwrap (tag : N) (r : result bytes) : result bytes :=
  rbind r (fun bs => if N.eqb (get_size_width (len bs)) 3 then Ok (tlv code_len tag bs) else Err X509InvalidWidth).

Lemma fwrap_lift {C} tag r (c : C) : fwrap tag (flift r) c = flift (rwrap tag r) c.
Proof.
  unfold fwrap, fbind, flift, rwrap. destruct r as [bs|e|k]; cbn [rbind]; try reflexivity.
  destruct (N.eqb _ 3); reflexivity.
Qed.

Section Tbs.
  Variable cf : config.
  Variable crit : bool.
  Variable C : Type.
  Variable md : measurement_data.
  Let p := prof cf.

  Definition rspki (k : pubkey) : result bytes :=
    match spki_der cf k with Some d => Ok (E d) | None => Err InvalidArgument end.
  Lemma runs_rspki k : runs false 0 (encode_spki cf C k) (flift (rspki k)).
  Proof.
    eapply runs_feq; [|apply runs_spki]. intros c. unfold fspki, rspki, flift, fpure, ffail.
    destruct (spki_der cf k); reflexivity.
  Qed.

  Definition rtbs (serial issuer : bytes) (subject : name) (pk : pubkey) (v : cert_validity) : result bytes :=
    rbind (rspki pk) (fun k => rbind (rexts cf crit md true) (fun x =>
      Ok (E (CTX 0 [INTEGER 2]) ++ tlv code_len 2 (code_int serial) ++ E (alg_id (sig_alg_oid p)) ++ issuer
          ++ E (SEQUENCE [GENERALIZED_TIME (cv_not_before v); GENERALIZED_TIME (cv_not_after v)])
          ++ E (name_der subject) ++ k ++ x))).
  Definition rinfo (subject : name) (pk : pubkey) : result bytes :=
    rbind (rspki pk) (fun k => rbind (rattrs cf crit md) (fun x =>
      Ok (E (INTEGER 0) ++ E (name_der subject) ++ k ++ x))).

  Ltac item t := apply Forall2_cons; [t|].

  Lemma runs_tbs serial issuer subject pk v :
    runs true 1 (encode_tbs cf crit C serial issuer subject pk md v)
         (flift (rwrap 0x30 (rtbs serial issuer subject pk v))).
  Proof.
    eapply runs_feq; [intros c; apply fwrap_lift|].
    set (body := seq_of [ encode_version C; encode_integer_bytes C serial true; encode_sig_alg_id cf C;
                    encode_bytes issuer; encode_validity C v; encode_rdn C subject;
                    encode_spki cf C pk; encode_extensions cf crit C md true ]).
    assert (HB : runs false 0 body (flift (rtbs serial issuer subject pk v))).
    { unfold body. eapply runs_feq; [|apply runs_seq_lift].
      2: { item ltac:(apply (pure_lift C), pure_version). item ltac:(apply (pure_lift C), pure_integer_bytes).
           item ltac:(apply (pure_lift C), pure_sig_alg). item ltac:(apply (pure_lift C), pure_bytes).
           item ltac:(apply (pure_lift C), pure_validity). item ltac:(exact (runs_false C _ _ _ _ (runs_rdn C subject))).
           item ltac:(apply runs_rspki). item ltac:(apply runs_exts). apply Forall2_nil. }
      intros c. unfold flift, rtbs. cbn [fold_left rapp rbind].
      destruct (rspki pk) as [k| |]; cbn [rbind rapp]; try reflexivity.
      destruct (rexts cf crit md true) as [x| |]; cbn [rbind rapp]; try reflexivity.
      rewrite <- ?app_assoc. reflexivity. }
    eapply runs_ext; [|eapply runs_check, (runs_wrap3 C false 0 0x30 (fun _ => body)), HB].
    intros w. unfold encode_tbs. fold body. unfold wrap3, T_SEQUENCE, wbind, wret.
    repeat step.
  Qed.

  Lemma runs_info subject pk :
    runs true 1 (encode_certification_request_info cf crit C pk subject md)
         (flift (rwrap 0x30 (rinfo subject pk))).
  Proof.
    eapply runs_feq; [intros c; apply fwrap_lift|].
    set (body := seq_of [ encode_integer C 0 true; encode_rdn C subject; encode_spki cf C pk;
                          encode_attributes cf crit C md ]).
    assert (HB : runs false 0 body (flift (rinfo subject pk))).
    { unfold body. eapply runs_feq; [|apply runs_seq_lift].
      2: { item ltac:(apply (pure_lift C), pure_integer_bytes). item ltac:(exact (runs_false C _ _ _ _ (runs_rdn C subject))).
           item ltac:(apply runs_rspki). item ltac:(apply runs_attrs). apply Forall2_nil. }
      intros c. unfold flift, rinfo. cbn [fold_left rapp rbind].
      change (tlv code_len T_INTEGER (code_int (be_bytes 8 0))) with (E (INTEGER 0)).
      destruct (rspki pk) as [k| |]; cbn [rbind rapp]; try reflexivity.
      destruct (rattrs cf crit md) as [x| |]; cbn [rbind rapp]; try reflexivity.
      rewrite <- ?app_assoc. reflexivity. }
    eapply runs_ext; [|eapply runs_check, (runs_wrap3 C false 0 0x30 (fun _ => body)), HB].
    intros w. unfold encode_certification_request_info. fold body. unfold wrap3, T_SEQUENCE, wbind, wret.
    repeat step.
  Qed.
End Tbs.

(** ** Signed structures *)

Section Signed.
  Variable cf : config.
  Variable C : Type.
  Variable cb : sign_data -> bool -> C -> (signature + crypto_error) * C.
  Let p := prof cf.

  (** One signing call on [bs], then [k]. *)
  Definition fsign (bs : bytes) (derived : bool) (k : signature -> bytes) : gen C := fun c =>
    match cb (SDBuffer bs) derived c with
    | (inl g, c') => (Ok (k g), c')
    | (inr e, c') => (Err (CryptoErr e), c')
    end.
  Definition bits_of (g : signature) : bytes := E (alg_id (sig_alg_oid p)) ++ E (signature_bits g).
  Definition fsigned (f : gen C) (derived : bool) : gen C :=
    fwrap 0x30 (fbind f (fun bs => fsign bs derived (fun g => bs ++ bits_of g))).

  Definition signed_body (payload : W C N) (derived : bool) (offset : N) : W C N :=
    wbind payload (fun n =>
    wbind (call_sign cb offset (offset + n) derived) (fun sg =>
    wbind (encode_signature_bit_string cf C sg) (fun k => wret (n + k)))).

  Lemma call_sign_ok w start bs derived :
    start + len bs <= len (cw_buf w) ->
    firstn (length bs) (skipn (N.to_nat start) (cw_buf w)) = bs ->
    call_sign cb start (start + len bs) derived w =
      match cb (SDBuffer bs) derived (cw_c w) with
      | (inl sg, c) => (Ok sg, mkCw (cw_buf w) (cw_off w) (cw_csr w) (cw_back w) (cw_saved w) c)
      | (inr e, c) => (Err (CryptoErr e), mkCw (cw_buf w) (cw_off w) (cw_csr w) (cw_back w) (cw_saved w) c)
      end.
  Proof.
    intros HL HR. unfold call_sign.
    destruct (N.leb_spec start (start + len bs)); [|lia].
    destruct (N.leb_spec (start + len bs) (len (cw_buf w))); [|lia]. cbn [andb].
    replace (N.to_nat (start + len bs - start)) with (length bs) by (unfold len; lia).
    rewrite HR. reflexivity.
  Qed.

  Lemma runs_signed_body d payload f derived : runs true d payload f ->
    runs false d (fun w => signed_body payload derived (cw_off w) w)
         (fbind f (fun bs => fsign bs derived (fun g => bs ++ bits_of g))).
  Proof.
    intros H w Hs Hb. pose proof (H w Hs Hb) as O. unfold signed_body. unfold wbind at 1.
    destruct (payload w) as [r1 w1]. unfold outc in O; cbn [fst snd] in O.
    destruct O as [bs c1 w1 Hf K P Hk Eo Eb Es Ec|e c1 w1 Hf K Ec|x c1 w1 Hf K Ec|w1 K Hn].
    2-4: unfold outc; cbn [fst snd].
    2: { eapply OutErr; eauto. unfold fbind. rewrite Hf. reflexivity. }
    2: { eapply OutCrash; eauto. unfold fbind. rewrite Hf. reflexivity. }
    2: { apply OutFull; [exact K|]. unfold fbind. intros bs c' E0.
         destruct (f (cw_c w)) as [[a|?|?] c1]; try discriminate. specialize (Hn a c1 eq_refl).
         unfold fsign in E0. destruct (cb _ _ c1) as [[g|e] c2]; try discriminate.
         apply (f_equal fst) in E0. cbn [fst] in E0. apply ok_inj in E0. rewrite <- E0.
         unfold fits in *. rewrite len_app. lia. }
    specialize (Hk eq_refl). specialize (P Hk).
    assert (LB : len (cw_buf w1) = len (cw_buf w)) by (unfold len; rewrite (proj1 K); reflexivity).
    unfold wbind at 1.
    rewrite (call_sign_ok w1 (cw_off w) bs derived).
    2: { unfold fits in Hk. lia. }
    2: { rewrite P. apply read_put_at. exact Hk. }
    rewrite Ec.
    destruct (cb (SDBuffer bs) derived c1) as [[g|e] c2] eqn:Ecb.
    - set (w2 := mkCw (cw_buf w1) (cw_off w1) (cw_csr w1) (cw_back w1) (cw_saved w1) c2).
      destruct (pure_signature_bits cf C g w2) as (b & Em & Lb & Fb & Pb). fold (bits_of g) in *.
      unfold wbind. change (E (alg_id (sig_alg_oid (prof cf))) ++ E (signature_bits g)) with (bits_of g) in *. rewrite Em. unfold wret, outc. cbn [fst snd].
      rewrite <- len_app. eapply OutDone with (c' := c2); cbn [cw_buf cw_off cw_back cw_saved cw_c].
      + unfold fbind, fsign. rewrite Hf, Ecb. reflexivity.
      + eapply keeps_trans; [|exact K|]; [rewrite Eo; lia|]. split; [exact Lb|exact Pb].
      + intros Hx. unfold fits in Hx. rewrite len_app in Hx. cbn [w2 cw_buf cw_off] in *.
        rewrite Fb by (unfold fits; cbn [w2 cw_buf cw_off]; rewrite LB, Eo; lia).
        rewrite P, Eo. apply put_at_app. rewrite len_app. lia.
      + discriminate.
      + cbn [w2 cw_off]. rewrite Eo, len_app. lia.
      + exact Eb.
      + exact Es.
      + reflexivity.
    - unfold outc. cbn [fst snd]. eapply OutErr with (c' := c2); [|exact K|reflexivity].
      unfold fbind, fsign. rewrite Hf, Ecb. reflexivity.
  Qed.

  Lemma runs_signed_payload d payload f derived : runs true d payload f ->
    runs true (S d)
      (wbind (encode_signed_payload cf C cb payload derived) (fun n =>
       wbind check_not_truncated (fun _ => wret n)))
      (fsigned f derived).
  Proof.
    intros H. apply (runs_check C false). 
    eapply runs_ext; [|apply (runs_wrap3 C false d 0x30 (signed_body payload derived)), runs_signed_body, H].
    intros w. unfold encode_signed_payload, wrap3, signed_body, T_SEQUENCE, wbind, wret.
    repeat step.
    do 2 f_equal. lia.
  Qed.

  Lemma runs_certificate crit md serial issuer subject pk v :
    runs true 2 (encode_certificate cf crit C cb serial issuer subject pk md v)
         (fsigned (flift (rwrap 0x30 (rtbs cf crit md serial issuer subject pk v))) false).
  Proof. apply runs_signed_payload, runs_tbs. Qed.
  Definition fcsr crit md subject pk : gen C := fsigned (flift (rwrap 0x30 (rinfo cf crit md subject pk))) true.
  Lemma runs_csr crit md subject pk :
    runs true 2 (encode_csr cf crit C cb pk subject md) (fcsr crit md subject pk).
  Proof. apply runs_signed_payload, runs_info. Qed.
End Signed.
