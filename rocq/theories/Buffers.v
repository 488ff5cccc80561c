(** Buffers.v -- the response buffer of a command only decides whether the response
    fits: any other buffer gives the same response and the same state when it is long
    enough, and an error when it is too short. *)
From Verif Require Import Base Errors Types StateOps Env Wire Instance Commands Lib Spec Exec Effects Forest History Contract Codec
  Responses Walk Measure Der DerProofs X509Spec X509 X509Cert X509Run X509Bytes X509Enc X509Gen X509Made X509Total X509Sane X509Cmd.
Open Scope N_scope.
Open Scope dpe_scope.

Definition handles16 (s : state) : Prop := Forall (fun c => length (c_handle c) = 16%nat) (st_contexts s).
(** The errors for a response that does not fit. *)
Definition too_short (e : dpe_error) : Prop := e = InvalidResponseBuf \/ e = InternalError CertSizeOverflow.

Section Obliv.
  Context {C P : Type}.
  Notation world := (world C P).
  Notation M := (M C P).
  (** Computations that neither read nor write the buffer. *)
  Definition obliv {A} (m : M A) : Prop :=
    forall w o, m (set_out w o) = (fst (m w), set_out (snd (m w)) o) /\ w_out (snd (m w)) = w_out w.
  (** Computations that end with a response. *)
  Definition measured (Q : dpe_error -> Prop) (m : M N) : Prop :=
    forall w n w', m w = (Ok n, w') -> handles16 (w_st w') -> (N.to_nat n <= length (w_out w'))%nat /\ forall out2,
      ((N.to_nat n <= length out2)%nat ->
        exists o2, m (set_out w out2) = (Ok n, set_out w' o2) /\ length o2 = length out2 /\
                   firstn (N.to_nat n) o2 = firstn (N.to_nat n) (w_out w')) /\
      ((length out2 < N.to_nat n)%nat -> exists e w2, m (set_out w out2) = (Err e, w2) /\ Q e).

  Lemma obliv_blind {A} (m : M A) : blind m -> obliv m.
  Proof. intros H w o. destruct (H w o) as (A1 & _ & A3). auto. Qed.
  Lemma obliv_bind {A B} (m : M A) (f : A -> M B) : obliv m -> (forall a, obliv (f a)) -> obliv (bind m f).
  Proof.
    intros H1 H2 w o. unfold bind. destruct (H1 w o) as (E1 & O1). rewrite E1.
    destruct (m w) as [[a|e|k] w1]; cbn [fst snd] in *; [|split; [reflexivity|assumption]..].
    destruct (H2 a w1 o) as (E2 & O2). rewrite E2. split; [reflexivity|congruence].
  Qed.
  Lemma obliv_put s : obliv (put_st s).
  Proof. intros w o. split; reflexivity. Qed.
  Lemma obliv_if {A} (b : bool) (m1 m2 : M A) : obliv m1 -> obliv m2 -> obliv (if b then m1 else m2).
  Proof. destruct b; auto. Qed.
  Lemma obliv_ok {A} (m : M A) w a w1 o : obliv m -> m w = (Ok a, w1) -> m (set_out w o) = (Ok a, set_out w1 o) /\ w_out w1 = w_out w.
  Proof. intros H E0. destruct (H w o) as (E1 & O1). rewrite E0 in *. auto. Qed.

  Lemma measured_bind {A} Q (m : M A) (f : A -> M N) : obliv m -> (forall a, measured Q (f a)) -> measured Q (bind m f).
  Proof.
    intros H1 H2 w n w' H HH. apply bind_inv in H as [(a & w1 & E0 & H)|[(e & _ & X)|(e & _ & X)]]; [|discriminate..].
    destruct (H2 a _ _ _ H HH) as (L & G). split; [exact L|]. intros out2. destruct (obliv_ok m w a w1 out2 H1 E0) as (E1 & _).
    destruct (G out2) as (G1 & G2). unfold bind. rewrite E1. auto.
  Qed.
  Lemma measured_fail Q e : measured Q (@fail C P N e).
  Proof. intros w n w' H. discriminate. Qed.
  Lemma measured_if Q (b : bool) (m1 m2 : M N) : measured Q m1 -> measured Q m2 -> measured Q (if b then m1 else m2).
  Proof. destruct b; auto. Qed.
  Lemma measured_respond (Q : dpe_error -> Prop) bs : Q InvalidResponseBuf -> measured Q (respond C P bs).
  Proof.
    intros HQ w n w' H _. unfold respond, write_out, bind, ret in H. cbn [plus] in H.
    destruct (Nat.leb_spec (length bs) (length (w_out w))) as [L|L]; [|discriminate].
    pose proof (f_equal fst H) as H1. pose proof (f_equal snd H) as H2. cbn [fst snd] in H1, H2. apply ok_inj in H1. subst n w'. cbn [w_out firstn app].
    rewrite Nat2N.id. split; [rewrite app_length; lia|]. intros out2. unfold respond, write_out, bind, ret. cbn [plus set_out w_out w_st w_c w_p].
    destruct (Nat.leb_spec (length bs) (length out2)) as [L2|L2]; split; intros L3; try lia.
    - eexists. split; [reflexivity|]. cbn [firstn app]. split; [rewrite app_length, skipn_length; lia|].
      rewrite !firstn_app, !Nat.sub_diag, !firstn_all. reflexivity.
    - eexists _, _. split; [reflexivity|exact HQ].
  Qed.
  Lemma measured_weaken (Q R : dpe_error -> Prop) m : (forall e, Q e -> R e) -> measured Q m -> measured R m.
  Proof.
    intros HQ H w n w' E0 HH. destruct (H w n w' E0 HH) as (L & G). split; [exact L|]. intros out2. destruct (G out2) as (G1 & G2).
    split; [exact G1|]. intros L2. destruct (G2 L2) as (e & w2 & A1 & A2). eauto.
  Qed.
End Obliv.

Ltac obliv_auto :=
  repeat match goal with
    | |- obliv (bind _ _) => apply obliv_bind; [|intros ?]
    | |- obliv (put_st _) => apply obliv_put
    | |- obliv (ret _) => apply obliv_blind, blind_ret
    | |- obliv (fail _) => apply obliv_blind, blind_fail
    | |- obliv (lift _) => apply obliv_blind, blind_lift
    | |- obliv get_st => apply obliv_blind, blind_get_st
    | |- obliv (crypto _) => apply obliv_blind, blind_crypto
    | |- obliv (platform _) => apply obliv_blind, blind_platform
    | |- obliv (match ?x with _ => _ end) => destruct x
    end.

Section Commands.
  Variable cf : config.
  Context {C P : Type}.
  Variable co : crypto_ops C.
  Variable po : platform_ops P.
  Notation M := (M C P).
  Notation exec := (exec_command cf C P co po (x509_gen cf C P co po)).

  Lemma obliv_get i e : obliv (st_get C P i e).
  Proof. unfold st_get. obliv_auto. Qed.
  Lemma obliv_index i : obliv (st_index C P i).
  Proof. unfold st_index. obliv_auto. Qed.
  Lemma obliv_set i c e : obliv (st_set C P i c e).
  Proof. unfold st_set. obliv_auto. Qed.
  Lemma obliv_assign i c : obliv (st_assign C P i c).
  Proof. unfold st_assign. obliv_auto. Qed.
  Lemma obliv_handle : obliv (generate_new_handle C P co).
  Proof. unfold generate_new_handle. generalize max_new_handle_attempts. induction n as [|n IH]; cbn [gen_handle_loop]; obliv_auto. all: exact IH. Qed.
  Lemma obliv_roll c : obliv (roll_handle C P co c).
  Proof. unfold roll_handle. obliv_auto. all: apply obliv_handle. Qed.
  Lemma obliv_tci c m loc : obliv (add_tci_measurement C P co c m loc).
  Proof. unfold add_tci_measurement. obliv_auto. all: apply obliv_blind, blind_hash_all. Qed.
  Lemma obliv_profile sup : obliv (get_profile cf C P po sup).
  Proof. unfold get_profile. obliv_auto. Qed.
  Lemma obliv_chain off size buf : obliv (cert_chain_call C P po off size buf).
  Proof. apply obliv_blind, blind_chain_call. Qed.
  Lemma obliv_sign idx label data : obliv (do_sign cf C P co po idx label data).
  Proof. unfold do_sign. obliv_auto. all: apply obliv_blind, blind_cmh. Qed.
  Lemma obliv_tmp_parent flags pc : obliv (derive_tmp_parent C P co flags pc).
  Proof. unfold derive_tmp_parent. obliv_auto. all: apply obliv_handle. Qed.

  (** A header of [off] bytes in front of a certificate of [sz] bytes. *)
  Definition heads (w : world C P) (off : nat) (sz : N) (m : M N) : Prop :=
    forall n w', m w = (Ok n, w') -> handles16 (w_st w') -> n = N.of_nat off + sz /\ exists hdr, length hdr = off /\
      w_out w' = hdr ++ skipn off (w_out w) /\
      forall o, (off <= length o)%nat -> m (set_out w o) = (Ok n, set_out w' (hdr ++ skipn off o)).
  Lemma heads_bind {A} w off sz (m : M A) (f : A -> M N) : obliv m -> (forall a w1, m w = (Ok a, w1) -> heads w1 off sz (f a)) ->
    heads w off sz (bind m f).
  Proof.
    intros H1 H2 n w' H HH. apply bind_inv in H as [(a & w1 & E0 & H)|[(e & _ & X)|(e & _ & X)]]; [|discriminate..].
    destruct (H2 a _ E0 _ _ H HH) as (L & hdr & G1 & G2 & G3). split; [exact L|]. exists hdr. split; [exact G1|].
    destruct (obliv_ok m w a w1 [] H1 E0) as (_ & EO). rewrite EO in G2. split; [exact G2|].
    intros o Ho. destruct (obliv_ok m w a w1 o H1 E0) as (E1 & _). unfold bind. rewrite E1. apply G3, Ho.
  Qed.
  Lemma heads_write w off sz hdr : (handles16 (w_st w) -> length hdr = off) ->
    heads w off sz (write_out 0 hdr ;; ret (N.of_nat off + sz)).
  Proof.
    intros HL n w' H HH. unfold write_out, bind, ret in H. cbn [plus] in H.
    destruct (Nat.leb_spec (length hdr) (length (w_out w))) as [L|L]; [|discriminate].
    pose proof (f_equal fst H) as H1. pose proof (f_equal snd H) as H2. cbn [fst snd] in H1, H2. apply ok_inj in H1. subst n w'. cbn [w_st w_out] in *.
    specialize (HL HH). split; [reflexivity|]. exists hdr. rewrite <- HL. split; [reflexivity|]. split; [reflexivity|].
    intros o Ho. unfold write_out, bind, ret. cbn [plus set_out w_out w_st w_c w_p].
    destruct (Nat.leb_spec (length hdr) (length o)); [reflexivity|lia].
  Qed.
  Lemma heads_fail w off sz e : heads w off sz (fail e).
  Proof. intros n w' H. discriminate. Qed.

  Lemma firstn_head (hdr a : bytes) off n : length hdr = off -> (off <= n)%nat -> firstn n (hdr ++ a) = hdr ++ firstn (n - off) a.
  Proof. intros <- H. rewrite firstn_app, firstn_all2 by exact H. reflexivity. Qed.
  Lemma behind (out bs : bytes) off : (off <= length out)%nat ->
    skipn off (firstn off out ++ bs ++ skipn (off + length bs) out) = bs ++ skipn (off + length bs) out.
  Proof.
    intros H. rewrite skipn_app, skipn_all2 by (rewrite firstn_length; lia). rewrite firstn_length, Nat.min_l by exact H.
    rewrite Nat.sub_diag. reflexivity.
  Qed.

  Lemma measured_cert k a off (f : cert_result -> M N) :
    (forall w cr, heads w off (cr_size cr) (f cr)) ->
    measured (fun e => e = InternalError CertSizeOverflow) (bind (run_cert C P (x509_gen cf C P co po) k a off) f).
  Proof.
    intros HF w n w' H HH. apply bind_inv in H as [(cr & w1 & E0 & H)|[(e & _ & X)|(e & _ & X)]]; [|discriminate..].
    rewrite run_create in E0. destruct (create_cert_sizes cf co po _ _ _ _ _ _ E0) as (bs & Hsz & Ho & HL & HG).
    destruct (HF w1 cr n w' H HH) as (En & hdr & Lh & Ew & G). unfold len in Hsz.
    rewrite Ho, behind in Ew by lia.
    assert (Nn : N.to_nat n = (off + length bs)%nat) by lia.
    split; [rewrite Ew, !app_length, skipn_length; lia|]. intros out2. destruct (HG out2) as (G1 & G2). split; intros L2.
    - rewrite Nn in *. specialize (G1 L2). unfold bind. rewrite run_create, G1.
      rewrite set_out_twice || idtac. specialize (G (firstn off out2 ++ bs ++ skipn (off + length bs) out2)).
      rewrite behind in G by lia. rewrite G by (rewrite !app_length, firstn_length, skipn_length; lia).
      eexists. split; [reflexivity|]. rewrite Ew. split; [rewrite !app_length, skipn_length; lia|].
      rewrite !(firstn_head hdr) with (off := off) by lia. f_equal. replace (off + length bs - off)%nat with (length bs) by lia.
      rewrite !firstn_app, !firstn_all, !Nat.sub_diag. reflexivity.
    - rewrite Nn in L2. specialize (G2 L2). unfold bind. rewrite run_create.
      destruct (create_cert cf C P co po k a off (set_out w out2)) as [r2 w2]. cbn [fst] in G2. subst r2. eauto.
  Qed.

  Lemma slot16 s i c : handles16 s -> get_ctx s i = Some c -> length (c_handle c) = 16%nat.
  Proof. intros H E0. unfold handles16 in H. rewrite Forall_forall in H. apply H. eapply nth_error_In. exact E0. Qed.
  Lemma assigned w i c w1 u : st_assign C P i c w = (Ok u, w1) -> get_ctx (w_st w1) i = Some c.
  Proof.
    unfold st_assign, bind, get_st. cbn [w_st]. destruct (Nat.ltb_spec i (length (st_contexts (w_st w)))) as [L|L]; [|discriminate].
    intros H. apply (f_equal snd) in H. cbn [snd put_st] in H. subst w1. cbn [w_st]. unfold get_ctx, put_ctx. cbn [set_contexts st_contexts].
    apply nth_error_upd_eq. exact L.
  Qed.

  Ltac look :=
    repeat first
      [ match goal with
        | |- obliv (st_get _ _ _ _) => apply obliv_get
        | |- obliv (st_index _ _ _) => apply obliv_index
        | |- obliv (st_set _ _ _ _ _) => apply obliv_set
        | |- obliv (st_assign _ _ _ _) => apply obliv_assign
        | |- obliv (generate_new_handle _ _ _) => apply obliv_handle
        | |- obliv (roll_handle _ _ _ _) => apply obliv_roll
        | |- obliv (add_tci_measurement _ _ _ _ _ _) => apply obliv_tci
        | |- obliv (get_profile _ _ _ _ _) => apply obliv_profile
        | |- obliv (cert_chain_call _ _ _ _ _ _) => apply obliv_chain
        | |- obliv (do_sign _ _ _ _ _ _ _ _) => apply obliv_sign
        | |- obliv (derive_tmp_parent _ _ _ _ _) => apply obliv_tmp_parent
        | |- obliv (bind _ _) => apply obliv_bind; [|intros ?]
        end
      | progress obliv_auto ].
  Ltac gauge :=
    repeat first
      [ match goal with
        | |- measured _ (bind _ _) => apply measured_bind; [look|intros ?]
        | |- measured _ (fail _) => apply measured_fail
        | |- measured _ (respond _ _ _) => apply measured_respond; auto
        | |- measured _ (match ?x with _ => _ end) => destruct x
        end ].

  Definition refused (e : dpe_error) : Prop := e = InvalidResponseBuf.
  Definition overflow (e : dpe_error) : Prop := e = InternalError CertSizeOverflow.

  Lemma measured_certify cmd loc : measured overflow (exec_certify cf C P co (x509_gen cf C P co po) cmd loc).
  Proof.
    unfold exec_certify.
    apply measured_bind; [look|intros s]. apply measured_bind; [look|intros idx]. apply measured_bind; [look|intros ctx].
    apply measured_if; [apply measured_fail|]. apply measured_if; [apply measured_fail|]. apply measured_if; [apply measured_fail|].
    apply measured_if; [apply measured_fail|].
    assert (HF : forall (w : world C P) cr, heads w (certify_hdr_size (certify_profile cmd)) (cr_size cr)
      (let! ctx := st_index C P idx in
       let! ctx := roll_handle C P co ctx in
       st_assign C P idx ctx ;;
       match pubkey_bytes (certify_profile cmd) (cr_pubkey cr) with
       | None => fail InvalidArgument
       | Some pk =>
           write_out 0 (certify_hdr_bytes cf (c_handle ctx) pk (cr_size cr)) ;;
           ret (N.of_nat (certify_hdr_size (certify_profile cmd)) + cr_size cr)
       end)).
    { intros w cr. apply heads_bind; [look|intros c0 w1 _]. apply heads_bind; [look|intros c1 w2 _].
      apply heads_bind; [look|intros u w3 EA]. apply assigned in EA.
      destruct (pubkey_bytes (certify_profile cmd) (cr_pubkey cr)) as [pk|] eqn:PK; [|apply heads_fail].
      apply heads_write. intros H16. exact (certify_bytes_len cf _ _ _ _ _ (slot16 _ _ _ H16 EA) PK). }
    destruct (N.eqb (ck_format (certify_inner cmd)) 0); [apply measured_cert, HF|].
    destruct (N.eqb (ck_format (certify_inner cmd)) 1); [apply measured_cert, HF|].
    intros w n w' H. discriminate.
  Qed.

  Lemma measured_export c parent tmp loc : measured overflow (derive_export cf C P po (x509_gen cf C P co po) c parent tmp loc).
  Proof.
    unfold derive_export. apply measured_bind; [look|intros u]. apply measured_bind; [look|intros ueid]. apply measured_bind; [look|intros s].
    apply measured_cert. intros w cr. apply heads_bind; [look|intros pc w1 _].
    apply heads_bind; [look|intros u0 w2 _]. intros n w' H HH. revert n w' H HH.
    change (heads w2 exported_hdr_size (cr_size cr)
      (let! p := st_index C P parent in
       write_out 0 (exported_hdr_bytes cf invalid_handle (c_handle p) (to_buf exported_cdi_size (cr_exported cr)) (cr_size cr)) ;;
       ret (N.of_nat exported_hdr_size + cr_size cr))).
    apply heads_bind; [look|intros p w3 EP]. apply heads_write. intros H16.
    assert (L : length (c_handle p) = 16%nat).
    { unfold st_index, bind, get_st, lift in EP. cbn [w_st] in EP. pose proof (f_equal fst EP) as E1. pose proof (f_equal snd EP) as E2. cbn [fst snd] in E1, E2.
      subst w3. unfold index_or_crash in E1. destruct (get_ctx (w_st w2) parent) as [x|] eqn:EG; [|discriminate]. apply ok_inj in E1. subst x.
      exact (slot16 _ _ _ H16 EG). }
    unfold exported_hdr_bytes. rewrite !app_length, length_ok_hdr, L, length_le_bytes, length_to_buf. reflexivity.
  Qed.

  Theorem command_measured cmd loc : measured too_short (exec cmd loc).
  Proof.
    assert (QR : too_short InvalidResponseBuf) by (left; reflexivity).
    assert (QO : forall e, overflow e -> too_short e) by (right; assumption).
    destruct cmd as [|f|d|c|sg|h f|h|o sz|u]; cbn [exec_command].
    - unfold exec_get_profile. gauge.
    - unfold exec_init. gauge.
    - unfold exec_derive. apply measured_bind; [look|intros s]. apply measured_if; [apply measured_fail|].
      apply measured_bind; [look|intros [pc parent]]. apply measured_if; [apply measured_fail|]. cbv zeta.
      apply measured_if; [unfold derive_recursive; gauge|]. apply measured_bind; [look|intros b].
      apply measured_if; [apply measured_fail|]. apply measured_bind; [look|intros pc2]. apply measured_bind; [look|intros tp].
      apply measured_if; [eapply measured_weaken; [exact QO|apply measured_export]|unfold derive_child; gauge].
    - eapply measured_weaken; [exact QO|apply measured_certify].
    - unfold exec_sign. gauge.
    - unfold exec_rotate. gauge.
    - unfold exec_destroy. gauge.
    - unfold exec_get_chain. gauge.
    - unfold exec_update. gauge.
  Qed.
End Commands.
