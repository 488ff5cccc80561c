(** RefFaults.v -- which faults the reference platform and the reference crypto back end
    really have: proofs. *)
From Verif Require Import Base Errors Types StateOps Env Wire Instance Commands Response RustCrypto DefaultPlatform Lib Spec Exec Effects Forest History WireSpec Contract Codec
  Steps Reach CommandSpecs Responses Execute Walk Measure Reasons Explain Avail Der DerProofs X509 X509Cert X509Run X509Spec X509Gen X509Sane X509Cmd X509Facts X509Size X509Out X509Fit X509Fail
  PlatformProofs RustProofs Trace TraceCmds TraceRust.
Open Scope N_scope.

(** Errors that are not the client's. *)
Definition environmental (e : dpe_error) : Prop :=
  match e with CryptoErr _ | PlatformErr _ | InternalError _ => True | _ => False end.

Section Reasons.
  Variable cf : config.
  Context {C P : Type}.
  Variable co : crypto_ops C.
  Variable po : platform_ops P.
  Variables A B : N.

  (** The calls that explain an error that is not the client's. *)
  Definition env_reason (cmd : command) (loc : N) (s : state) (room : nat) (e : dpe_error) : Prop :=
    match e with
    | CryptoErr ce => rand_fault co ce \/ cert_fault cf co ce
    | PlatformErr pe => vendor_fault po pe \/ ueid_fault po pe \/ names_fault po pe \/
        exists off size p b' p', cmd = CmdGetCertificateChain off size /\ size <= 2048 /\ po_certificate_chain po off size (repeat 0 2048) p = (inr pe, b', p')
    | InternalError ic =>
        ic = HandleGenerationExhausted \/
        (ic = DigestLengthMismatch /\ exists l d, hash_of co l d /\ length d <> tci_size cf) \/
        (ic = CertChainChunkSliceOob /\ exists o b p n b' p', po_certificate_chain po o 2048 b p = (inl n, b', p') /\ 2048 < n mod 2 ^ 32) \/
        (ic = CertSizeOverflow /\ writer_refusal cf co po A B cmd loc s room e)
    | _ => True
    end.

  Lemma reason_ext cmd loc s room e : no_extension cf co e -> env_reason cmd loc s room e.
  Proof. intros [(ce & -> & H)|(-> & H)]; cbn [env_reason]; [right; left; exact H|right; left; auto]. Qed.
  Lemma reason_handle cmd loc s s' room e : no_handle co s' e -> env_reason cmd loc s room e.
  Proof. intros [(ce & -> & H)|(-> & H)]; cbn [env_reason]; auto. Qed.
  Lemma reason_meas cmd loc s i room e : no_measurement co po s i e -> env_reason cmd loc s room e.
  Proof.
    intros [(ce & -> & H)|[(pe & -> & H & _)|(-> & _ & H)]]; cbn [env_reason]; [right; left; exact H|auto|].
    right; right; left. auto.
  Qed.
  Lemma reason_yours cmd loc s h room e : not_yours s h loc e -> env_reason cmd loc s room e.
  Proof.
    intros [_ H]. destruct e; try exact I; exfalso; unfold denied in H; repeat destruct H as [H|H]; try discriminate; destruct H; discriminate.
  Qed.
  Ltac rs := first [ exact I | eapply reason_ext; eassumption | eapply reason_handle; eassumption | eapply reason_meas; eassumption | eapply reason_yours; eassumption ].

  Lemma refusal_reason cmd loc s s' room e : refusal cf co po (obliging cf) cmd loc s s' room e -> env_reason cmd loc s room e.
  Proof.
    intros [[-> _]|H]; [exact I|]. destruct cmd as [|f|d|c|c|h f|h|off size|u]; cbn [refusal] in H.
    - destruct H as (pe & -> & H). left. exact H.
    - destruct H as [[-> _]|[[-> _]|[[-> _]|[_ H]]]]; rs.
    - destruct H as [[-> _]|[H|(i & x & _ & _ & [[-> _]|H])]]; [rs..|]. destruct (N.testbit (dc_flags d) 24).
      { destruct H as [[-> _]|[[-> _]|[H|[_ H]]]]; rs. }
      destruct H as [(_ & _ & H)|H]; [rs|]. destruct (N.testbit (dc_flags d) 23).
      { destruct H as [(pe & -> & H)|(a & b & p & out & c' & p' & out' & _ & _ & _ & _ & H)]; [right; left; exact H|discriminate]. }
      destruct H as [[-> _]|[[-> _]|[H|[_ H]]]]; rs.
    - destruct H as (k & h & -> & _ & [H|(i & x & _ & _ & H)]); [rs|].
      destruct H as [[-> _]|[[-> _]|[(a & b & p & out & c' & p' & out' & _ & _ & _ & _ & _ & H)|[[_ H]|[-> _]]]]]; try rs. discriminate.
    - destruct H as [[-> _]|(h & _ & [H|(i & x & _ & _ & H)])]; try rs.
      destruct H as [[-> _]|[H|[(ce & -> & H)|[[-> _]|[_ H]]]]]; try rs. right. right. left. exact H.
    - destruct H as [[-> _]|[H|[[-> _]|[_ H]]]]; rs.
    - rs.
    - destruct H as [[-> _]|(Hz & pe & p & b' & p' & -> & H)]; [rs|]. do 3 right. exists off, size, p, b', p'. auto.
    - destruct H as [[-> _]|[[-> _]|(p & _ & [[-> _]|[H|H]])]]; rs.
  Qed.
  Lemma cert_reason cmd loc s room k h u left e : cert_refusal cf co po A B k h loc s u left e ->
    writer_refusal cf co po A B cmd loc s room e -> env_reason cmd loc s room e.
  Proof.
    intros [H|(i & cts & _ & _ & [H|[(ce & -> & H)|[(pe & -> & H)|[-> H]]]])] W; try rs.
    - right. exact H.
    - right; right; left. exact H.
    - do 3 right. split; [reflexivity|exact W].
  Qed.
  Lemma writer_reason cmd loc s room e : writer_refusal cf co po A B cmd loc s room e -> env_reason cmd loc s room e.
  Proof.
    intros H. pose proof H as H0. destruct cmd as [|f|d|c|c|h f|h|off size|u]; try contradiction; cbn [writer_refusal] in H.
    - destruct H as (_ & u & _ & H). eapply cert_reason; eassumption.
    - destruct c; destruct H as [[_ H]|[_ H]]; eapply cert_reason; eassumption.
  Qed.

  (** A full buffer is only reported if it is. *)
  Ltac nb := first [ discriminate
    | match goal with H : no_extension _ _ _ |- _ => destruct H as [(? & H & _)|(H & _)]; discriminate H end
    | match goal with H : no_handle _ _ _ |- _ => destruct H as [(? & H & _)|(H & _)]; discriminate H end
    | match goal with H : no_measurement _ _ _ _ _ |- _ => destruct H as [(? & H & _)|[(? & H & _)|(H & _)]]; discriminate H end
    | match goal with H : not_yours _ _ _ _ |- _ => destruct H as [_ H]; unfold denied in H; repeat destruct H as [H|H]; first [discriminate H|destruct H; discriminate] end ].
  Lemma refusal_room cmd loc s s' room : refusal cf co po (obliging cf) cmd loc s s' room InvalidResponseBuf -> (room < fixed_size cf cmd)%nat.
  Proof.
    intros [[_ H]|H]; [exact H|exfalso]. destruct cmd as [|f|d|c|c|h f|h|off size|u]; cbn [refusal] in H.
    - destruct H as (pe & X & H). nb.
    - destruct H as [[X _]|[[X _]|[[X _]|[_ H]]]]; nb.
    - destruct H as [[X _]|[H|(i & x & _ & _ & [[X _]|H])]]; [nb..|]. destruct (N.testbit (dc_flags d) 24).
      { destruct H as [[X _]|[[X _]|[H|[_ H]]]]; nb. }
      destruct H as [(_ & _ & H)|H]; [nb|]. destruct (N.testbit (dc_flags d) 23).
      { destruct H as [(pe & X & H)|(a & b & p & out & c' & p' & out' & _ & _ & _ & _ & H)]; nb. }
      destruct H as [[X _]|[[X _]|[H|[_ H]]]]; nb.
    - destruct H as (k & h & -> & _ & [H|(i & x & _ & _ & H)]); [nb|].
      destruct H as [[X _]|[[X _]|[(a & b & p & out & c' & p' & out' & _ & _ & _ & _ & _ & H)|[[_ H]|[X _]]]]]; nb.
    - destruct H as [[X _]|(h & _ & [H|(i & x & _ & _ & H)])]; try nb.
      destruct H as [[X _]|[H|[(ce & X & H)|[[X _]|[_ H]]]]]; nb.
    - destruct H as [[X _]|[H|[[X _]|[_ H]]]]; nb.
    - nb.
    - destruct H as [[X _]|(Hz & pe & p & b' & p' & X & H)]; nb.
    - destruct H as [[X _]|[[X _]|(p & _ & [[X _]|[H|H]])]]; nb.
  Qed.
  Lemma writer_room cmd loc s room : ~ writer_refusal cf co po A B cmd loc s room InvalidResponseBuf.
  Proof.
    assert (CR : forall k h u left, ~ cert_refusal cf co po A B k h loc s u left InvalidResponseBuf).
    { intros k h u left [H|(i & cts & _ & _ & [H|[(ce & H & _)|[(pe & H & _)|[H _]]]])]; nb. }
    intros H. destruct cmd as [|f|d|c|c|h f|h|off size|u]; try contradiction; cbn [writer_refusal] in H.
    - destruct H as (_ & u & _ & H). eapply CR; eassumption.
    - destruct c; destruct H as [[_ H]|[_ H]]; eapply CR; eassumption.
  Qed.

  (** A legitimate request only fails through the environment. *)
  Ltac ev := first [ exact I
    | match goal with H : no_extension _ _ ?e |- environmental ?e => destruct H as [(? & -> & _)|(-> & _)]; exact I end
    | match goal with H : no_handle _ _ ?e |- environmental ?e => destruct H as [(? & -> & _)|(-> & _)]; exact I end
    | match goal with H : no_measurement _ _ _ _ ?e |- environmental ?e => destruct H as [(? & -> & _)|[(? & -> & _)|(-> & _)]]; exact I end
    | exfalso; eapply mine_not; eassumption ].
  Hypothesis Hsig : forall d b sg b', co_signer_sign co d b = (inl sg, b') ->
      match sg with SigEcdsa256 _ _ => feat_p256 cf = true | SigEcdsa384 _ _ => feat_p384 cf = true | SigMldsa _ => feat_mldsa cf = true end.
  Lemma refused_env cmd loc s s' room e : legitimate cf po cmd loc s -> (fixed_size cf cmd <= room)%nat ->
    refusal cf co po (obliging cf) cmd loc s s' room e -> environmental e.
  Proof.
    intros L R [[_ X]|X]; [lia|].
    destruct cmd as [|f|d|c|c|h f|h|off size|u]; cbn [legitimate refusal] in *.
    - destruct X as (pe & -> & X). ev.
    - destruct L as [Hfree L]. apply free_not_full in Hfree.
      destruct X as [[_ [[X1 X2]|[X1 X2]]]|[[_ X]|[[_ X]|[_ X]]]]; [| | | |ev]; exfalso; destruct L as [(L1 & L2 & L3)|(L1 & L2 & L3)]; try congruence; auto.
    - destruct L as (L1 & i & x & M & L2 & L3).
      destruct X as [[_ X]|[X|(j & y & F & At & X)]]; [contradiction|ev|].
      destruct (mine_same _ _ _ _ _ _ _ M F At) as [<- <-].
      destruct X as [[_ X]|X]; [contradiction|].
      destruct (N.testbit (dc_flags d) 24) eqn:B24.
      + destruct L3 as [L3 L4]. destruct X as [[_ X]|[[_ X]|[X|[X Y]]]]; [contradiction|contradiction|ev|ev].
      + destruct X as [(X & Y & Z)|X]; [ev|]. destruct (N.testbit (dc_flags d) 23) eqn:B23.
        * destruct X as [(pe & -> & X)|(a & b & p & out & c' & p' & out' & Lo & _ & _ & _ & X)]; [ev|discriminate].
        * destruct L3 as [L3 L4]. apply free_not_full in L3.
          destruct X as [[_ X]|[[_ X]|[X|[X Y]]]]; [contradiction| |ev|ev].
          exfalso. unfold unsafe_child in X. destruct (N.testbit (dc_flags d) 28) eqn:B28.
          { destruct X as (j & c & A1 & A2 & A3 & A4). destruct (L4 j c A1 A2 A3) as (-> & Z1 & Z2).
            destruct A4 as [A4|[A4|A4]]; congruence. }
          { destruct X as (j & [A1 _] & A4). destruct (L4 j A1) as (-> & Z). destruct A4; congruence. }
    - destruct L as (h & i & x & Hp & M & L).
      destruct X as (k & ch & -> & Hkk & X).
      assert (Eh : h = ck_handle ch) by (destruct Hkk as [-> | [-> | ->]]; exact Hp). subst h.
      destruct X as [X|(j & y & F & At & X)]; [ev|].
      destruct (mine_same _ _ _ _ _ _ _ M F At) as [<- <-].
      assert (Hfmt : (ck_format ch = 0%N /\ supports s X509 /\ c_x509 x = true) \/ (ck_format ch = 1%N /\ supports s CSR)).
      { destruct Hkk as [-> | [-> | ->]], (prof cf); tauto. }
      destruct X as [[_ X]|[[_ X]|[(a & b & p & out & c' & p' & out' & Lo & _ & _ & _ & _ & X)|[[X Y]|(_ & kd & a & b & p & out & cr & c' & p' & out' & X & Y)]]]].
      + exfalso. destruct Hfmt as [(Z1 & Z2 & Z3)|(Z1 & Z2)], X as [[X1 X2]|[X1 X2]]; try contradiction; congruence.
      + exfalso. destruct Hfmt as [(Z1 & Z2 & Z3)|(Z1 & Z2)], X as [[X1 X2]|X1]; try congruence; lia.
      + discriminate.
      + ev.
      + exfalso. injection X as <- _ _ _. cbn [cr_pubkey] in Y. destruct Hkk as [-> | [-> | ->]], (prof cf); contradiction.
    - destruct L as [L1 L2].
      destruct X as [(_ & rr & -> & X)|(h & Hp & X)]; [exfalso; specialize (L1 _ eq_refl); lia|].
      destruct (L2 h Hp) as (i & x & M & L3).
      destruct X as [X|(j & y & F & At & X)]; [ev|].
      destruct (mine_same _ _ _ _ _ _ _ M F At) as [<- <-].
      destruct X as [[_ X]|[X|[(ce & -> & X)|[(_ & dg & b & sg & b' & X & Y)|[X Y]]]]]; try ev.
      + exfalso; congruence.
      + exfalso. apply Hsig in X. destruct sg; congruence.
    - destruct L as (L1 & i & x & M & L2).
      destruct X as [[_ X]|[X|[(_ & X & t & j & y & F & At & A1 & A2 & Y)|[_ X]]]]; [contradiction|ev| |ev].
      exfalso. destruct (L2 X) as [L3 L4]. pose proof (L4 j y At A1 A2) as ->.
      destruct M as [M1 M2]. assert (t = i).
      { destruct M1 as [N1 N2], F as [F1 F2]. destruct (lt_eq_lt_dec t i) as [[?|]|?]; auto; exfalso; [eapply N2|eapply F2]; eauto. }
      subst t. destruct Y as [Y|Y]; [|congruence]. unfold at_slot in *. congruence.
    - destruct L as (i & x & M). ev.
    - destruct L as [L1 L2]. destruct X as [[_ X]|(_ & pe & p & b' & p' & -> & X)]; [lia|ev].
    - destruct L as (L1 & p & x & M & i & c & L2 & L3 & L4 & L5).
      destruct X as [[_ X]|[[_ X]|(q & F & X)]]; [contradiction|exfalso; destruct M as [[M _] _]; exact (X _ M)|].
      assert (q = p).
      { destruct M as [[N1 N2] _], F as [F1 F2]. destruct (lt_eq_lt_dec q p) as [[?|]|?]; auto; exfalso; [eapply N2|eapply F2]; eauto. }
      subst q. destruct X as [[_ X]|[X|X]]; [destruct (X i c L2 L3 L4 L5)|ev|ev].
  Qed.
  Lemma cert_env k h loc s u left e i : names s h loc i -> cert_refusal cf co po A B k h loc s u left e -> environmental e.
  Proof.
    intros M [[X _]|(j & cts & _ & _ & [H|[(ce & -> & H)|[(pe & -> & H)|[-> H]]]])]; try ev. destruct (X _ M).
  Qed.
  Lemma writer_env cmd loc s room e : legitimate cf po cmd loc s -> writer_refusal cf co po A B cmd loc s room e -> environmental e.
  Proof.
    intros L H. destruct cmd as [|f|d|c|c|h f|h|off size|u]; try contradiction; cbn [writer_refusal legitimate] in *.
    - destruct L as (_ & i & x & [[M _] _] & _). destruct H as (_ & u & _ & H). eapply cert_env; eassumption.
    - destruct L as (h & i & x & Hp & [[M _] _] & _).
      destruct c; cbn [presents] in Hp; subst h; destruct H as [[_ H]|[_ H]]; eapply cert_env; eassumption.
  Qed.
End Reasons.

(** ** Only a request for a full chain may lack space *)
Section Room.
  Variable cf : config.
  Hypothesis Hcf : config_ok cf.
  Context {C P : Type}.
  Variable co : crypto_ops C.
  Variable po : platform_ops P.
  Variables A B : N.
  Hypothesis Hsizes : sizes_chosen cf.
  Hypothesis HAB : A + B <= 97.

  (** The chain of the context [cmd] names takes all slots. *)
  Definition whole_chain (cmd : command) (loc : N) (s : state) : Prop :=
    exists h i cts, presents cmd h /\ first_slot (names s h loc) i /\ lineage s i cts /\ length cts = max_handles cf.

  Lemma cert_overflow k h loc s u left : wf cf s -> u <= 48 -> (prof cf = P256Sha256 -> kind_exported k = false -> u <= 32) ->
    max_cert_size cf <= left -> cert_refusal cf co po A B k h loc s u left (InternalError CertSizeOverflow) ->
    kind_csr k = true /\ exists i cts, first_slot (names s h loc) i /\ lineage s i cts /\ length cts = max_handles cf.
  Proof.
    intros W HU HP HR [[_ X]|(i & cts & HF & HL & [X|[(ce & X & _)|[(pe & X & _)|(_ & X)]]])]; try discriminate.
    - exfalso. unfold denied in X. repeat destruct X as [X|X]; try discriminate; destruct X; discriminate.
    - destruct X as [(? & X & _)|[(? & X & _)|(X & _)]]; discriminate.
    - pose proof (lineage_bound _ _ _ _ W HL) as LB.
      assert (Q : ~ (kind_csr k = true -> (length cts < max_handles cf)%nat)).
      { intros Q. pose proof (longest_fits cf Hcf A B Hsizes HAB k s i cts u W HL HU HP Q). lia. }
      destruct (kind_csr k); [|destruct Q; discriminate]. split; [reflexivity|]. exists i, cts. split; [exact HF|]. split; [exact HL|].
      destruct (le_lt_dec (max_handles cf) (length cts)); [lia|]. destruct Q. auto.
  Qed.
  Lemma writer_overflow cmd loc s room : wf cf s -> command_wf cf cmd -> WireSpec.for_profile cf cmd -> (response_size cf cmd <= room)%nat ->
    writer_refusal cf co po A B cmd loc s room (InternalError CertSizeOverflow) -> asks_request cmd /\ whole_chain cmd loc s.
  Proof.
    intros W HW FP HR H. unfold writer_refusal in H. cbv zeta in H.
    assert (RR : response_size cf cmd = (fixed_size cf cmd + N.to_nat (max_cert_size cf))%nat ->
              max_cert_size cf <= N.of_nat room - N.of_nat (fixed_size cf cmd)) by lia.
    destruct cmd as [|f|d|c|c|h f|h|off size|u]; try contradiction.
    - destruct H as (B23 & u & HU & H). exfalso.
      apply cert_overflow in H; [destruct H; discriminate|exact W|exact HU|discriminate|].
      apply RR. unfold response_size, response_layout. unfold df_export_cdi. rewrite contains_bit, B23. cbn [fixed_size]. rewrite B23.
      unfold list_sum, exported_cdi_size, handle_size. cbn [app fold_right]. lia.
    - assert (RO : forall f, asks_certificate (CmdCertifyKey c) \/ asks_request (CmdCertifyKey c) -> f = output_start (CmdCertifyKey c) ->
                response_size cf (CmdCertifyKey c) = (f + N.to_nat (max_cert_size cf))%nat).
      { intros f HA ->. apply room_of. exact HA. }
      assert (Core : forall h, presents (CmdCertifyKey c) (ck_handle h) ->
                len (ck_label h) <= 48 -> (prof cf = P256Sha256 -> len (ck_label h) <= 32) ->
                max_cert_size cf <= N.of_nat room - N.of_nat (fixed_size cf (CmdCertifyKey c)) ->
                (ck_format h = 1 -> asks_request (CmdCertifyKey c)) ->
                (ck_format h = 0 /\ cert_refusal cf co po A B KindX509 (ck_handle h) loc s (len (ck_label h))
                    (N.of_nat room - N.of_nat (fixed_size cf (CmdCertifyKey c))) (InternalError CertSizeOverflow)) \/
                (ck_format h = 1 /\ cert_refusal cf co po A B KindCsr (ck_handle h) loc s (len (ck_label h))
                    (N.of_nat room - N.of_nat (fixed_size cf (CmdCertifyKey c))) (InternalError CertSizeOverflow)) ->
                asks_request (CmdCertifyKey c) /\ whole_chain (CmdCertifyKey c) loc s).
      { intros h HP U48 U32 M HA [[_ X]|[F1 X]]; (apply cert_overflow in X; [|exact W|exact U48|intros EP _; exact (U32 EP)|exact M]).
        - destruct X; discriminate.
        - destruct X as (_ & i & cts & X1 & X2 & X3). split; [exact (HA F1)|]. exists (ck_handle h), i, cts. auto. }
      assert (HA : forall h, c = CertifyP256 h \/ c = CertifyP384 h \/ c = CertifyMldsa87 h -> asks_certificate (CmdCertifyKey c) \/ asks_request (CmdCertifyKey c)).
      { intros h [-> | [-> | ->]]; cbn [asks_certificate asks_request]; destruct (N.eq_dec (ck_format h) 0); auto. }
      destruct c as [h|h|h]; cbn [command_wf] in HW; destruct HW as (_ & _ & _ & HC & _); cbn [WireSpec.for_profile] in FP;
        apply (Core h); try exact H; try reflexivity; try (unfold len; lia); try (intros EP; congruence);
        try (intros F1; cbn [asks_request]; lia);
        apply RR; apply RO; try (apply (HA h); auto); reflexivity.
  Qed.
End Room.

(** ** The reference platform and back end *)

(** A certificate the reference platform can work with: the names and the serial number
    fit their buffers. *)
Definition artifacts_fit (chain issuer serial ski : bytes) : Prop :=
  chain_fits chain /\ (length issuer <= 97)%nat /\ (length serial <= 20)%nat /\ (20 <= length ski)%nat.

Section Platform.
  Variables chain issuer serial ski : bytes.
  Hypothesis Fit : artifacts_fit chain issuer serial ski.
  Notation po := (default_platform chain issuer serial ski).

  Lemma ref_vendor e : ~ vendor_fault po e.
  Proof. intros [(p & p' & X)|(p & p' & X)]; discriminate. Qed.
  Lemma ref_ueid e : ~ ueid_fault po e.
  Proof.
    intros [(p & p' & X)|(_ & u & p & p' & X & L)]; [discriminate|]. cbn [po_ueid default_platform] in X. apply (f_equal fst) in X. cbn [fst] in X.
    injection X as <-. cbn [ueid_size] in L. lia.
  Qed.
  Lemma ref_issuer out : (97 <= length out)%nat -> exists b, default_issuer_name issuer out = (inl (N.of_nat (length issuer)), b).
  Proof.
    intros H. destruct Fit as (_ & F & _). unfold default_issuer_name. destruct (Nat.ltb_spec (length out) (length issuer)); [lia|]. eauto.
  Qed.
  Lemma ref_names e : ~ names_fault po e.
  Proof.
    destruct Fit as (_ & F1 & F2 & F3).
    intros [(p & b' & p' & X)|[(N0 & p & p' & X)|[(p & p' & X)|[(p & p' & X)|(p & b' & p' & X)]]]].
    - cbn [po_issuer_key_identifier default_platform] in X. unfold default_issuer_key_identifier, max_key_identifier_size in X.
      destruct (Nat.ltb_spec (length ski) 20); [lia|]. discriminate.
    - apply N0. cbn [po_subject_alt_name default_platform] in X. congruence.
    - discriminate.
    - cbn [po_signer_identifier default_platform] in X. apply (f_equal fst) in X. cbn [fst] in X. unfold default_signer_identifier in X.
      destruct (ref_issuer (repeat 0 max_issuer_name_size)) as (b & E); [rewrite repeat_length; unfold max_issuer_name_size; lia|]. rewrite E in X.
      unfold max_issuer_name_size in X. destruct (N.ltb_spec (N.of_nat 128) (N.of_nat (length issuer))); [lia|].
      unfold max_sn_size in X. destruct (Nat.ltb_spec 20 (length serial)); [lia|]. discriminate.
    - cbn [po_issuer_name default_platform] in X. destruct (ref_issuer (repeat 0 128)) as (b & E); [rewrite repeat_length; lia|]. rewrite E in X. discriminate.
  Qed.
  Lemma ref_chunk o b p n b' p' : po_certificate_chain po o 2048 b p = (inl n, b', p') -> ~ 2048 < n mod 2 ^ 32.
  Proof.
    intros X. cbn [po_certificate_chain default_platform] in X. unfold default_chain in X.
    destruct (N.leb _ o); [discriminate|]. destruct (N.leb (2 ^ 32) _); [discriminate|]. destruct (N.ltb_spec 2048 (N.min (o + 2048) (N.of_nat (length chain) mod 2 ^ 32) - o)) as [L|L]; [discriminate|].
    destruct (N.ltb (N.of_nat (length b)) _); [discriminate|]. apply (f_equal (fun x => fst (fst x))) in X. cbn [fst] in X. injection X as <-.
    rewrite N.mod_small by lia. lia.
  Qed.
  Lemma ref_piece off size p pe b' p' : size <= 2048 -> po_certificate_chain po off size (repeat 0 2048) p = (inr pe, b', p') ->
    pe = PECertificateChain /\ N.of_nat (length chain) <= off.
  Proof.
    intros Hs X. destruct Fit as (F0 & _). destruct (N.le_gt_cases (N.of_nat (length chain)) off) as [L|L].
    - rewrite platform_chain_end in X by assumption. split; [congruence|exact L].
    - rewrite platform_chain_more in X; [discriminate|exact F0|exact L|exact Hs|apply repeat_length].
  Qed.
End Platform.

Section Backend.
  Context {R : Type}.
  Variable pr : primitives R.
  Variable cf : config.
  Variable dig : digest_alg.
  Notation sig := (profile_alg (prof cf)).
  Notation co := (rust_ops R pr sig dig).
  Hypothesis So : sound pr sig dig.

  Lemma ref_rand e : ~ rand_fault co e.
  Proof. intros (c & c' & X). cbn [co_rand_bytes rust_ops] in X. unfold rc_rand_bytes in X. destruct (pr_fill pr 16 (rc_rng c)). discriminate. Qed.
  Lemma ref_cert_size : ~ cert_fault cf co CESize.
  Proof.
    intros [[(c & c' & X)|[(c & c' & X)|[(b & c & c' & X)|(c & c' & X)]]]|[[(d & i & c & c' & X)|[(l & i & c & c' & X)|(d & c & c' & X)]]|
      [(d & i & c & c' & X)|[(h & l & i & c & c' & X)|[(c & c' & X)|[(d & c & c' & X)|(X & _)]]]]]]; try discriminate.
    - cbn [co_hash_update rust_ops] in X. unfold rc_update in X. destruct (rc_hasher c); discriminate.
    - cbn [co_hash_finish rust_ops] in X. unfold rc_finish in X. destruct (rc_hasher c); [|discriminate]. pose proof (so_sha _ _ _ So) as L.
      destruct dig; rewrite L in X; discriminate.
    - cbn [co_derive_cdi rust_ops] in X. unfold rc_derive_cdi in X. destruct (cdi_total _ _ _ So d i) as [k K]. rewrite K in X. discriminate.
    - cbn [co_derive_key_pair rust_ops] in X. unfold rc_derive_key_pair in X. destruct (key_total _ _ _ So (rc_cdi c) l i) as (k & K & _). rewrite K in X. discriminate.
    - cbn [co_signer_sign rust_ops] in X. apply (f_equal fst) in X. apply (sign_fails _ _ _ So) in X as [[X _]|[X _]]; [|discriminate].
      unfold bad_key in X. destruct (prof cf); discriminate.
    - cbn [co_derive_exported_cdi rust_ops] in X. unfold rc_derive_exported_cdi in X. destruct (cdi_total _ _ _ So d i) as [k K]. rewrite K in X.
      destruct (existsb _ _); [discriminate|]. destruct (Nat.leb _ _); [discriminate|]. unfold rc_rand_bytes in X. destruct (pr_fill pr 32 (rc_rng c)). discriminate.
    - cbn [co_derive_key_pair_exported rust_ops] in X. unfold rc_derive_key_pair_exported in X. destruct (find _ _) as [[cdi x]|]; [|discriminate].
      unfold rc_derive_key_pair in X. cbn [rc_cdi] in X. destruct (key_total _ _ _ So cdi l i) as (k & K & _). rewrite K in X. discriminate.
    - cbn [co_signer_public_key rust_ops] in X. apply (f_equal fst) in X. apply public_fails in X as [X _].
      unfold bad_key in X. destruct (prof cf); discriminate.
    - cbn [co_sign_with_alias rust_ops] in X. apply (f_equal fst) in X. apply (alias_fails _ _ _ So) in X as [X _]. discriminate.
  Qed.
  Lemma ref_digest l d : hash_of co l d -> length d = digest_alg_size dig.
  Proof.
    intros (c & c1 & c2 & c3 & c4 & dg & _ & _ & _ & X & ->). cbn [co_hash_finish rust_ops] in X. unfold rc_finish in X.
    destruct (rc_hasher c3); [|discriminate]. pose proof (so_sha _ _ _ So) as L.
    destruct dig; rewrite L in X; cbn [Nat.eqb] in X; apply (f_equal fst) in X; cbn [fst] in X; injection X as <-; cbn [digest_bytes digest_alg_size]; apply length_to_buf.
  Qed.
  Lemma ref_variant d b sg b' : profile_enabled cf = true -> co_signer_sign co d b = (inl sg, b') ->
      match sg with SigEcdsa256 _ _ => feat_p256 cf = true | SigEcdsa384 _ _ => feat_p384 cf = true | SigMldsa _ => feat_mldsa cf = true end.
  Proof.
    intros E X. cbn [co_signer_sign rust_ops] in X. apply (f_equal fst) in X. cbn [fst] in X. unfold key_sign, profile_enabled in *. destruct (prof cf); cbn [profile_alg] in *.
    - destruct (pr_valid256 pr _); [|discriminate]. unfold ecdsa256_sign in X. destruct (ecdsa_prehash _ _); [|discriminate].
      destruct (pr_sign256 pr _ _) as [[]|]; [|discriminate]. injection X as <-. exact E.
    - destruct (pr_valid384 pr _); [|discriminate]. unfold ecdsa384_sign in X. destruct (ecdsa_prehash _ _); [|discriminate].
      destruct (pr_sign384 pr _ _) as [[]|]; [|discriminate]. injection X as <-. exact E.
    - destruct (Nat.eqb _ _); [|discriminate]. unfold mldsa_sign in X. destruct d; try discriminate; injection X as <-; exact E.
  Qed.
End Backend.

(** ** What a failing command leaves behind *)
Section Atomic.
  Variable cf : config.
  Hypothesis Hcf : config_ok cf.
  Context {C P : Type}.
  Variable co : crypto_ops C.
  Variable po : platform_ops P.
  Hypothesis Hkeys : keys_fit cf co.
  Notation exec := (exec_command cf C P co po (x509_gen cf C P co po)).

  Lemma certify_atomic c loc w e w' : wf cf (w_st w) -> WireSpec.for_profile cf (CmdCertifyKey c) ->
    exec (CmdCertifyKey c) loc w = (Err e, w') -> e <> InvalidResponseBuf -> w_st w' = w_st w.
  Proof.
    intros W FP H NE. cbn [exec_command] in H. apply exec_certify_inv in H as [[H _]|(s' & w1 & cr & nh & D & F)]; [exact H|exfalso].
    destruct D as (idx & ctx & _ & Hr & _). unfold run_cert in Hr.
    destruct (x509_gen cf C P co po _ _ _ (w_st w) (w_c w) (w_p w) (w_out w)) as [[[r c'] p'] o'] eqn:G. injection Hr as -> _.
    apply gen_key in G; [|exact Hkeys]. destruct F as [_ F].
    assert (EP : certify_profile c = prof cf) by (destruct c; cbn [certify_profile WireSpec.for_profile] in *; congruence).
    rewrite EP in F. destruct (prof cf), (cr_pubkey cr); try contradiction; cbn [pubkey_bytes] in F; destruct F as [(_ & F & _)|(_ & F & _)]; congruence.
  Qed.
  Lemma update_atomic u loc w e w' : exec_update cf C P co u loc w = (Err e, w') -> e <> InvalidResponseBuf ->
    w_st w' = w_st w \/ no_handle co (w_st w') e.
  Proof.
    intros H NE.
    assert (KA : forall c m l w r w', add_tci_measurement C P co c m l w = (r, w') -> w_st w' = w_st w).
    { intros. eapply add_tci_keeps. eassumption. }
    assert (KR : forall c w r w', roll_handle C P co c w = (r, w') -> w_st w' = w_st w).
    { intros. eapply roll_handle_keeps. eassumption. }
    unfold exec_update in H. mstep H; [mstep H; left; congruence|].
    mstep H. mstep H; [|left; congruence].
    mstep H; [|left; congruence]. mstep H; [|left; congruence]. mstep H; [|left; congruence].
    mstep H; [|left; eapply KA; eassumption]. match goal with X : add_tci_measurement _ _ _ _ _ _ _ = _ |- _ => apply KA in X end.
    mstep H; [|left; congruence].
    mstep H; [|left; match goal with X : roll_handle _ _ _ _ _ = _ |- _ => apply KR in X end; congruence].
    match goal with X : roll_handle _ _ _ _ _ = _ |- _ => apply KR in X end.
    mstep H; [|left; congruence].
    mstep H; [|right; match goal with X : roll_handle _ _ _ _ _ = _ |- _ => apply roll_err in X; apply X end].
    match goal with X : roll_handle _ _ _ _ _ = _ |- _ => apply KR in X end.
    mstep H.
    - apply respond_inv in H as [_ [(_ & X & _)|(_ & X & _)]]; [discriminate|injection X as ->; congruence].
    - exfalso. rewrite E3 in L0. cbn in L0. rewrite length_upd, E2, E1 in L0.
      apply nth_error_lt in G0. lia.
  Qed.
End Atomic.

Section Reference.
  Variable cf : config.
  Context {R : Type}.
  Variable pr : primitives R.
  Variable dig : digest_alg.
  Variables chain issuer serial ski : bytes.
  Notation sig := (profile_alg (prof cf)).
  Notation co := (rust_ops R pr sig dig).
  Notation po := (default_platform chain issuer serial ski).
  Notation exec := (exec_command cf (rust_c R) unit co po (x509_gen cf (rust_c R) unit co po)).

  (** Commands that use a derived key. *)
  Definition uses_key (cmd : command) : Prop :=
    match cmd with CmdSign _ | CmdCertifyKey _ => True | CmdDeriveContext c => N.testbit (dc_flags c) 23 = true | _ => False end.
  Definition exports_cdi (cmd : command) : Prop :=
    match cmd with CmdDeriveContext c => N.testbit (dc_flags c) 23 = true | _ => False end.
  (** The command drew eight handles in a row, and none could be used. *)
  Definition eight_draws (w w' : world (rust_c R) unit) : Prop :=
    exists t, performs co (w_c w) t (w_c w') /\ exhausted (w_st w') t.

  (** The complete list of errors that are not the client's. *)
  Definition ref_reason (cmd : command) (loc : N) (w w' : world (rust_c R) unit) (e : dpe_error) : Prop :=
    match e with
    | CryptoErr x =>
        (x = bad_key sig /\ uses_key cmd /\ exists salt ikm info k, pr_kdf pr sig salt ikm info = Some k /\ pr_usable pr sig k = false) \/
        ((x = CEExportedCdiHandleDuplicateCdi \/ x = CEExportedCdiHandleLimitExceeded) /\ exports_cdi cmd /\ rc_slots (w_c w) <> [])
    | PlatformErr x =>
        x = PECertificateChain /\ exists off size, cmd = CmdGetCertificateChain off size /\ N.of_nat (length chain) <= off
    | InternalError x =>
        (x = HandleGenerationExhausted /\ eight_draws w w') \/
        (x = CertSizeOverflow /\ asks_request cmd /\ whole_chain cf cmd loc (w_st w))
    | _ => False
    end.
End Reference.
