(** X509Sane.v -- the modelled certificate writer meets what the theorems about
    commands ask of a certificate writer: it keeps the size of the response
    buffer, writes bytes and never panics. *)
From Verif Require Import Base Errors Types StateOps Env Wire Instance Commands Lib Spec Exec Forest Contract WireSpec Codec
  Walk Measure Der DerProofs X509 X509Cert X509Run X509Spec X509Bytes X509Enc X509Tbs X509Cms X509Out X509Proper X509Gen X509Read X509ReadOk X509Made X509Total.
Open Scope N_scope.
Open Scope dpe_scope.

(** ** Trees that consist of bytes *)

Fixpoint bytey (t : der) : Prop :=
  match t with
  | Prim tag c => tag < 256 /\ all_bytes c
  | Cons tag ks => tag < 256 /\ (fix go l := match l with [] => True | x :: r => bytey x /\ go r end) ks
  | Wrap tag pre ks =>
      tag < 256 /\ all_bytes pre /\ (fix go l := match l with [] => True | x :: r => bytey x /\ go r end) ks
  | Opaque b => all_bytes b
  end.

Lemma tlv_bytes tag c : tag < 256 -> all_bytes c -> all_bytes (tlv code_len tag c).
Proof. intros H1 H2. constructor; [exact H1|]. apply all_bytes_app. split; [apply code_len_bytes|exact H2]. Qed.

Fixpoint bytey_E (t : der) : bytey t -> all_bytes (E t).
Proof.
  assert (K : forall ks, (fix go l := match l with [] => True | x :: r => bytey x /\ go r end) ks ->
              all_bytes (concat (map E ks))).
  { induction ks as [|x ks IH]; cbn [map concat]; [constructor|]. intros [H1 H2]. apply all_bytes_app.
    split; [apply bytey_E, H1|apply IH, H2]. }
  destruct t as [tag c|tag ks|tag pre ks|b]; cbn [bytey enc_with].
  - intros [H1 H2]. apply tlv_bytes; assumption.
  - intros [H1 H2]. apply tlv_bytes; [exact H1|apply K, H2].
  - intros (H1 & H2 & H3). apply tlv_bytes; [exact H1|]. apply all_bytes_app. split; [exact H2|apply K, H3].
  - auto.
Qed.
Fixpoint proper_bytey (t : der) : proper t -> bytey t.
Proof.
  assert (K : forall ks, (fix go l := match l with [] => True | x :: r => proper x /\ go r end) ks ->
              (fix go l := match l with [] => True | x :: r => bytey x /\ go r end) ks).
  { induction ks as [|x ks IH]; [exact (fun H => H)|]. intros [H1 H2]. split; [apply proper_bytey, H1|apply IH, H2]. }
  destruct t as [tag c|tag ks|tag pre ks|b]; cbn [bytey proper].
  - intros [[H1 _] H2]. split; assumption.
  - intros [[H1 _] H2]. split; [exact H1|apply K, H2].
  - intros ([H1 _] & H2 & H3). split; [exact H1|]. split; [exact H2|apply K, H3].
  - contradiction.
Qed.
Lemma bytey_kids tag l : tag < 256 -> Forall bytey l -> bytey (Cons tag l).
Proof. intros Ht H. cbn [bytey]. split; [exact Ht|]. induction H; auto. Qed.
Lemma proper_E t : proper t -> all_bytes (E t).
Proof. intros H. apply bytey_E, proper_bytey, H. Qed.
Lemma proper_Es l : Forall proper l -> all_bytes (concat (map E l)).
Proof.
  induction 1 as [|t l H _ IH]; cbn [map concat]; [constructor|]. apply all_bytes_app. split; [apply proper_E, H|exact IH].
Qed.
Lemma code_int_bytes l : all_bytes l -> all_bytes (code_int l).
Proof.
  intros H. unfold code_int. apply all_bytes_app. split; [|apply all_bytes_skipn, H].
  destruct (N.ltb _ _); [constructor; [reflexivity|constructor]|constructor].
Qed.

(** ** What the writer produces *)

Section Sane.
  Variable cf : config.
  Hypothesis Hcf : config_ok cf.
  Context {C P : Type}.
  Variable co : crypto_ops C.
  Variable po : platform_ops P.
  Notation world := (world C P).
  Notation M := (M C P).

  Definition out_bytes (r : result bytes) : Prop := forall b, r = Ok b -> all_bytes b.
  Definition gen_bytes (f : gen C) : Prop := forall c b c', f c = (Ok b, c') -> all_bytes b.
  Lemma out_rbind {A} (r : result A) f : (forall a, r = Ok a -> out_bytes (f a)) -> out_bytes (rbind r f).
  Proof. intros H b E0. destruct r as [a|e|k]; cbn [rbind] in E0; [eapply H; eauto|discriminate..]. Qed.
  Lemma out_ok b : all_bytes b -> out_bytes (Ok b).
  Proof. intros H b' E0. apply ok_inj in E0. subst. exact H. Qed.
  Lemma out_wrap tag r : tag < 256 -> out_bytes r -> out_bytes (rwrap tag r).
  Proof.
    intros Ht H. apply out_rbind. intros bs E0. destruct (N.eqb _ 3); [|discriminate].
    apply out_ok, tlv_bytes; [exact Ht|apply H, E0].
  Qed.
  Lemma out_app a b : out_bytes a -> out_bytes b -> out_bytes (rapp a b).
  Proof.
    intros Ha Hb. apply out_rbind. intros x Ex. apply out_rbind. intros y Ey. apply out_ok, all_bytes_app. auto.
  Qed.
  Lemma gen_lift r : out_bytes r -> gen_bytes (flift r).
  Proof. intros H c b c' E0. apply (f_equal fst) in E0. apply H. exact E0. Qed.
  Lemma gen_bind f g : (forall b, all_bytes b -> gen_bytes (g b)) -> gen_bytes f -> gen_bytes (fbind f g).
  Proof.
    intros Hg Hf c b c' E0. unfold fbind in E0. destruct (f c) as [[x|e|k] c1] eqn:E1; try discriminate.
    eapply Hg; [|exact E0]. eapply Hf; exact E1.
  Qed.
  Lemma gen_sign cb bs d k : (forall g, all_bytes (k g)) -> gen_bytes (fsign C cb bs d k).
  Proof.
    intros H c b c' E0. unfold fsign in E0. destruct (cb _ _ _) as [[g|e] c1]; [|discriminate].
    apply (f_equal fst) in E0. cbn [fst] in E0. apply ok_inj in E0. subst. apply H.
  Qed.
  Lemma gen_wrap tag f : tag < 256 -> gen_bytes f -> gen_bytes (fwrap tag f).
  Proof.
    intros Ht H. unfold fwrap. apply gen_bind; [|exact H]. intros b Hb. destruct (N.eqb _ 3).
    - intros c b' c' E0. unfold fpure in E0. apply (f_equal fst) in E0. cbn [fst] in E0. apply ok_inj in E0. subst.
      apply tlv_bytes; assumption.
    - intros c b' c' E0. discriminate.
  Qed.

  (** *** The measurement chain *)

  Lemma collected_slots l : forall n it cts, iter_collect cf true n l it = Ok cts -> Forall (fun c => In c l) cts.
  Proof.
    induction n as [|n IH]; intros it cts; cbn [iter_collect]; [discriminate|].
    destruct (iter_next_back cf l it) as [[[c|e|k]|] it'] eqn:E0; try discriminate.
    - destruct (iter_collect cf true n l it') as [r|e|k] eqn:E1; cbn [rbind]; try discriminate.
      intros H. apply ok_inj in H. subst. constructor; [|eapply IH; exact E1].
      assert (G : iter_get_context cf l (it_back it) = Ok c).
      { unfold iter_next_back in E0. destruct (it_done it); [discriminate|].
        destruct (Nat.leb _ _); [discriminate|]. destruct (Nat.leb _ _); [discriminate|].
        destruct (iter_get_context cf l (it_back it)) as [c1|e|k]; [|discriminate..].
        apply (f_equal fst) in E0. destruct (Nat.eqb _ _); [cbn [fst] in E0; congruence|].
        destruct (find_on_path _ _ _) as [[ch|]|e|k]; cbn [fst] in E0; congruence. }
      unfold iter_get_context in G. destruct (nth_error l (it_back it)) as [c1|] eqn:EN; [|discriminate].
      destruct (_ || _)%bool; [discriminate|]. apply ok_inj in G. subst. eapply nth_error_In; exact EN.
    - intros H. apply ok_inj in H. subst. constructor.
  Qed.
  Lemma bytes_tcb r c s : wf cf s -> In c (st_contexts s) -> all_bytes (E (tcb_der cf r (c_tci c))).
  Proof.
    intros W H. apply In_nth_error in H as [i H]. pose proof (wf_slot _ _ W i c H) as B.
    unfold tcb_der. rewrite svn_spec by apply (so_svn _ _ _ B). apply proper_E, proper_tcb_info.
    - apply (so_current _ _ _ B).
    - apply (so_cumulative _ _ _ B).
  Qed.
  Lemma bytes_infos md s cts : wf cf s -> md_contexts md = st_contexts s -> collect cf md = Ok cts ->
    all_bytes (infos cf md cts).
  Proof.
    intros W HM H. unfold collect in H. destruct (nodes_iter cf md) as [it|e|k]; cbn [rbind] in H; try discriminate.
    apply collected_slots in H. rewrite HM in H. unfold infos. clear HM it.
    induction H as [|c cts H _ IH]; cbn [map concat]; [constructor|]. apply all_bytes_app.
    split; [eapply bytes_tcb; eauto|exact IH].
  Qed.

  Definition md_bytes (s : state) (md : measurement_data) : Prop :=
    md_contexts md = st_contexts s /\ all_bytes (md_label md) /\ all_bytes (md_ski md) /\ all_bytes (md_aki md) /\
    match md_san md with Some o => all_bytes (on_oid o) /\ all_bytes (on_value o) | None => True end.

  Lemma bytes_others crit md s x509 : md_bytes s md -> all_bytes (others crit md x509).
  Proof.
    intros (_ & H1 & H2 & H3 & H4). unfold others. apply proper_Es.
    assert (B : proper (extensions x509 (xd crit md) [])) by (apply proper_extensions; [repeat split; assumption|constructor]).
    unfold extensions, SEQUENCE in B. cbn [proper] in B. destruct B as [_ [_ B]].
    revert B. generalize (other_extensions x509 (xd crit md)). intros l. induction l as [|t l IH]; [constructor|].
    intros [B1 B2]. constructor; auto.
  Qed.
  Lemma bytes_exts_raw crit md s x509 D I : md_bytes s md -> all_bytes I -> all_bytes (exts_raw crit md x509 D I).
  Proof.
    intros HM HI. unfold exts_raw, multi_raw, ext_head.
    constructor; [reflexivity|]. apply all_bytes_app. split; [apply code_len_bytes|].
    apply all_bytes_app. split; [|eapply bytes_others; eauto].
    apply all_bytes_app. split.
    - constructor; [reflexivity|]. apply all_bytes_app. split; [apply code_len_bytes|].
      apply all_bytes_app. split; [apply tlv_bytes; [reflexivity|repeat constructor]|].
      apply all_bytes_app. split; [destruct crit; [apply tlv_bytes; [reflexivity|repeat constructor]|constructor]|].
      constructor; [reflexivity|apply code_len_bytes].
    - constructor; [reflexivity|]. apply all_bytes_app. split; [apply code_len_bytes|exact HI].
  Qed.
  Lemma bytes_rexts crit md s x509 : wf cf s -> md_bytes s md -> out_bytes (rexts cf crit md x509).
  Proof.
    intros W HM. apply out_rbind. intros D _. apply out_rbind. intros cts HC. apply out_ok.
    unfold exts_field. apply all_bytes_app. split.
    - destruct x509; [|constructor]. constructor; [reflexivity|apply code_len_bytes].
    - eapply bytes_exts_raw; [exact HM|]. eapply bytes_infos; [exact W|apply HM|exact HC].
  Qed.
  Lemma bytes_rattrs crit md s : wf cf s -> md_bytes s md -> out_bytes (rattrs cf crit md).
  Proof.
    intros W HM. apply out_rbind. intros D _. apply out_rbind. intros cts HC. apply out_ok. unfold attrs_raw.
    repeat (constructor; [reflexivity|]; apply all_bytes_app; split; [apply code_len_bytes|]).
    apply all_bytes_app. split; [apply tlv_bytes; [reflexivity|repeat constructor]|].
    constructor; [reflexivity|]. apply all_bytes_app. split; [apply code_len_bytes|].
    eapply bytes_exts_raw; [exact HM|]. eapply bytes_infos; [exact W|apply HM|exact HC].
  Qed.

  (** *** Whole outputs *)

  Lemma bytes_spki pk : out_bytes (rspki cf pk).
  Proof.
    assert (H : match spki_der cf pk with Some d => proper d | None => True end).
    { unfold spki_der, ecdsa_pub. destruct pk as [x y|x y|b].
      1,2: assert (HP : all_bytes (0x04 :: to_buf 32 x ++ to_buf 32 y) /\ all_bytes (0x04 :: to_buf 48 x ++ to_buf 48 y))
             by (split; (constructor; [exact eq_refl|]); apply all_bytes_app; split; apply all_bytes_to_buf);
           destruct HP as [HP1 HP2];
           destruct (prof cf); try exact I;
           (apply proper_seq; apply Forall_cons; [apply proper_seq|apply Forall_cons; [apply proper_bits; assumption|apply Forall_nil]];
            apply Forall_cons; [apply proper_oid|]; apply Forall_cons; [apply proper_oid|apply Forall_nil]).
      apply proper_seq. constructor; [apply proper_alg|]. constructor; [|constructor]. apply proper_bits.
      unfold mldsa_pub. apply all_bytes_to_buf. }
    unfold rspki. destruct (spki_der cf pk) as [d|]; [|discriminate]. apply out_ok, proper_E, H.
  Qed.
  Lemma bytes_rtbs crit md s serial issuer subject pk v :
    wf cf s -> md_bytes s md -> all_bytes serial -> all_bytes issuer -> proper (name_der subject) -> validity_bytes v ->
    out_bytes (rtbs cf crit md serial issuer subject pk v).
  Proof.
    intros W HM H1 H2 H3 [H4 H5]. apply out_rbind. intros kb Ek. apply out_rbind. intros x Ex. apply out_ok.
    rewrite !all_bytes_app. split; [apply proper_E; prop|].
    split; [apply tlv_bytes; [reflexivity|apply code_int_bytes, H1]|]. split; [apply proper_E, proper_alg|].
    split; [exact H2|]. split; [apply proper_E; prop|].
    split; [apply proper_E, H3|]. split; [eapply bytes_spki; exact Ek|]. eapply bytes_rexts; eauto.
  Qed.
  Lemma bytes_rinfo crit md s subject pk :
    wf cf s -> md_bytes s md -> proper (name_der subject) -> out_bytes (rinfo cf crit md subject pk).
  Proof.
    intros W HM H3. apply out_rbind. intros kb Ek. apply out_rbind. intros x Ex. apply out_ok.
    rewrite !all_bytes_app. split; [apply proper_E, proper_integer|]. split; [apply proper_E, H3|].
    split; [eapply bytes_spki; exact Ek|]. eapply bytes_rattrs; eauto.
  Qed.
  Lemma bytes_fsigned cb f d : gen_bytes f -> gen_bytes (fsigned cf C cb f d).
  Proof.
    intros H. apply gen_wrap; [reflexivity|]. apply gen_bind; [|exact H]. intros b Hb. apply gen_sign. intros g.
    unfold bits_of. rewrite !all_bytes_app. split; [exact Hb|]. split; [apply proper_E, proper_alg|apply proper_E, proper_sig_bits].
  Qed.
  Definition sid_bytes (sid : signer_identifier) : Prop :=
    match sid with
    | IssuerAndSerialNumber i n => all_bytes i /\ all_bytes n
    | SubjectKeyIdentifier kid => all_bytes kid
    end.
  Lemma bytey_sid sid : sid_bytes sid -> bytey (sid_der sid).
  Proof.
    destruct sid as [i n|kid]; cbn [sid_bytes sid_der].
    - intros [H1 H2]. unfold SEQUENCE. cbn [bytey]. repeat split; try exact H1. apply code_int_bytes, H2.
    - intros H. unfold OCTETS. cbn [bytey]. repeat split; try constructor. exact H.
  Qed.
  Lemma bytes_sinfos sid g : sid_bytes sid -> all_bytes (sinfos cf sid g).
  Proof.
    intros H. unfold sinfos, SET. apply bytey_E, bytey_kids; [reflexivity|]. apply Forall_cons; [|apply Forall_nil].
    unfold sinfo_der, signer_info, SEQUENCE. apply bytey_kids; [reflexivity|].
    apply Forall_cons; [apply proper_bytey, proper_integer|]. apply Forall_cons; [apply bytey_sid, H|].
    apply Forall_cons; [apply proper_bytey, proper_alg|]. apply Forall_cons; [apply proper_bytey, proper_alg|].
    apply Forall_cons; [apply proper_bytey, proper_sig_octets|apply Forall_nil].
  Qed.
  Lemma bytes_fcms cb sid f : sid_bytes sid -> gen_bytes f -> gen_bytes (fcms cf C cb sid f).
  Proof.
    intros HS H. apply gen_bind.
    - intros sd Hsd. apply gen_lift. unfold rcms. apply out_wrap; [reflexivity|]. apply out_app.
      + apply out_ok, tlv_bytes; [reflexivity|repeat constructor].
      + apply out_wrap; [reflexivity|]. apply out_wrap; [reflexivity|]. apply out_ok, Hsd.
    - unfold fsd. apply gen_bind; [|exact H]. intros bs Hbs. apply gen_bind.
      + intros e He. apply gen_sign. intros g. unfold sd_head. rewrite !all_bytes_app.
        repeat split; [apply proper_E, proper_integer|apply proper_E; prop; apply proper_alg|exact He|apply bytes_sinfos, HS].
      + apply gen_lift. unfold rencap. apply out_wrap; [reflexivity|]. apply out_app.
        * apply out_ok, tlv_bytes; [reflexivity|repeat constructor].
        * apply out_wrap; [reflexivity|]. apply out_wrap; [reflexivity|]. apply out_ok, Hbs.
  Qed.

  Lemma bytes_draft k a s x : wf cf s -> all_bytes (ca_ueid a) -> draft_bytes k x -> gen_bytes (draft_gen cf co k a s x).
  Proof.
    intros W HU B.
    assert (HM : md_bytes s (draft_md k a s x)).
    { split; [reflexivity|]. cbn [draft_md md_label md_ski md_aki md_san]. split; [exact HU|].
      split; [apply (db_ski _ _ B)|]. split; [apply (db_aki _ _ B)|].
      pose proof (db_san _ _ B) as HN. destruct (dr_san x); [|exact I]. split; apply HN. }
    pose proof (draft_name_proper k x B) as HP.
    unfold draft_gen. cbv zeta. destruct (kind_csr k).
    - apply bytes_fcms.
      + pose proof (db_sid _ _ B) as HS. unfold sid_bytes. destruct (dr_sid x); [split; apply HS|apply HS].
      + unfold fcsr. apply bytes_fsigned, gen_lift, out_wrap; [reflexivity|]. eapply bytes_rinfo; eauto.
    - apply bytes_fsigned, gen_lift, out_wrap; [reflexivity|]. eapply bytes_rtbs; eauto.
      + destruct (db_subject _ _ B) as (dg & ->). cbn [nm_serial ds_bytes].
        apply Forall_firstn, Forall_firstn, ascii_bytes, hex_bytes, digest_bytes_bytes.
      + apply (db_issuer _ _ B).
      + apply (db_validity _ _ B).
  Qed.

  (** *** The writer as the commands call it *)

  Lemma created_bytes k a off w r w' : wf cf (w_st w) -> all_bytes (ca_ueid a) ->
    create_cert cf C P co po k a off w = (Ok r, w') -> all_bytes (w_out w) -> all_bytes (w_out w').
  Proof.
    intros W HU H HB. rewrite create_cert_draft in H.
    apply bind_inv in H as [(x & wd & E0 & H)|[(e & _ & X)|(e & _ & X)]]; [|discriminate..].
    apply draft_inv in E0 as (D & K1 & K2). apply drafted_bytes in D. rewrite bind_get_st in H.
    apply bind_inv in H as [(n & w1 & E1 & H)|[(e & _ & X)|(e & _ & X)]]; [|discriminate..].
    assert (w' = w1).
    { unfold draft_result in H. unfold to_u32 in H. destruct (N.ltb n (2 ^ 32)); [|discriminate].
      unfold bind, lift in H. destruct (kind_exported k); [|unfold ret in H; apply (f_equal snd) in H; cbn [snd] in H; congruence].
      destruct (ok_or _ _) as [h|e|y]; [|discriminate..]. unfold ret in H. apply (f_equal snd) in H. cbn [snd] in H. congruence. }
    subst w'. unfold run_writer in E1.
    pose proof (draft_runs cf co k a (w_st wd) x (skipn off (w_out wd)) (w_c wd)) as O. unfold outc in O.
    destruct (draft_write _ _ _ _ _ _ _ _) as [r2 wr]. cbn [fst snd] in O.
    pose proof (f_equal fst E1) as F1. pose proof (f_equal snd E1) as F2. cbn [fst snd] in F1, F2. subst r2.
    apply fresh_ok in O. destruct O as (bs & Hf & En & HL & Hbuf). rewrite <- F2. cbn [w_out]. rewrite Hbuf, K2.
    rewrite K1 in Hf. rewrite !all_bytes_app.
    split; [apply all_bytes_firstn, HB|]. split; [|apply all_bytes_skipn, all_bytes_skipn, HB].
    eapply bytes_draft; eauto.
  Qed.

  Theorem x509_sane : sane_writer cf (x509_gen cf C P co po).
  Proof.
    intros k a off s c p out r c' p' out' H. unfold x509_gen in H.
    destruct (create_cert cf C P co po k a off (mkWorld s c p out)) as [r0 w1] eqn:E0.
    inversion H; subst. clear H.
    pose proof (create_cert_frame cf co po _ _ _ _ _ _ E0) as (_ & L & _). split; [exact L|].
    intros cr -> W HU HB. exact (created_bytes _ _ _ (mkWorld s c p out) _ _ W HU E0 HB).
  Qed.
  Theorem x509_keeps_size : keeps_size (x509_gen cf C P co po).
  Proof. intros k a off s c p out r c' p' out' H. exact (proj1 (x509_sane _ _ _ _ _ _ _ _ _ _ _ H)). Qed.
  Theorem x509_returns : (forall p, chain_stops po (fuel cf) 0 (repeat 0 2048) p) ->
    forall kd a o s c p out k c' p' out', x509_gen cf C P co po kd a o s c p out <> (Crash k, c', p', out').
  Proof.
    intros He kd a o s c p out k c' p' out' H. unfold x509_gen in H.
    destruct (create_cert cf C P co po kd a o (mkWorld s c p out)) as [r0 w1] eqn:E0.
    inversion H; subst. eapply (create_cert_no_crash cf Hcf co po He); exact E0.
  Qed.
End Sane.
