(** ClientProofs.v -- the client and the simulator: proofs. *)
From Verif Require Import Base Errors Types StateOps Env Wire Instance Commands RespBuf Response X509 X509Cert RustCrypto DefaultPlatform Simulator GoClient ClientSpec
  Lib Spec Exec Effects Forest History WireSpec Contract Codec Steps Reach CommandSpecs Responses Execute Reasons Explain X509Spec X509Cmd X509Facts
  X509Fit X509Fail X509Sane Fits PlatformProofs RustProofs Props_Reference Props_Size Props_Fail SimulatorProofs Props_Simulator.
Local Open Scope N_scope.

(** ** No command fails with the status of success *)
Section Zero.
  Variable cf : config.
  Context {C P : Type}.
  Variable co : crypto_ops C.
  Variable po : platform_ops P.
  Variables A B : N.
  Ltac nb := first [ discriminate
    | match goal with H : no_extension _ _ _ |- _ => destruct H as [(? & H & _)|(H & _)]; discriminate H end
    | match goal with H : no_handle _ _ _ |- _ => destruct H as [(? & H & _)|(H & _)]; discriminate H end
    | match goal with H : no_measurement _ _ _ _ _ |- _ => destruct H as [(? & H & _)|[(? & H & _)|(H & _)]]; discriminate H end
    | match goal with H : not_yours _ _ _ _ |- _ => destruct H as [_ H]; unfold denied in H; repeat destruct H as [H|H]; first [discriminate H|destruct H; discriminate] end ].
  Lemma refusal_error cmd loc s s' room : ~ refusal cf co po (obliging cf) cmd loc s s' room NoError.
  Proof.
    intros [[X _]|H]; [discriminate|]. destruct cmd as [|f|d|c|c|h f|h|off size|u]; cbn [refusal] in H.
    - destruct H as (pe & X & H). nb.
    - destruct H as [[X _]|[[X _]|[[X _]|[_ H]]]]; nb.
    - destruct H as [[X _]|[H|(i & x & _ & _ & [[X _]|H])]]; [nb..|]. destruct (N.testbit (dc_flags d) 24).
      { destruct H as [[X _]|[[X _]|[H|[_ H]]]]; nb. }
      destruct H as [(_ & _ & H)|H]; [nb|]. destruct (N.testbit (dc_flags d) 23).
      { destruct H as [(pe & X & H)|(a & b & p & out & c' & p' & out' & _ & _ & _ & _ & H)]; nb. }
      destruct H as [[X _]|[[X _]|[H|[_ H]]]]; nb.
    - destruct H as (k & h & -> & _ & [H|(i & x & _ & _ & H)]); [nb|].
      destruct H as [[X _]|[[X _]|[(a & b & p & out & c' & p' & out' & _ & _ & _ & _ & _ & H)|[[_ H]|[X _]]]]]; nb.
    - destruct H as [[X _]|(h & _ & [H|(i & x & _ & _ & H)])]; try nb.
      destruct H as [[X _]|[H|[(ce & X & H)|[[X _]|[_ H]]]]]; nb.
    - destruct H as [[X _]|[H|[[X _]|[_ H]]]]; nb.
    - nb.
    - destruct H as [[X _]|(Hz & pe & p & b' & p' & X & H)]; nb.
    - destruct H as [[X _]|[[X _]|(p & _ & [[X _]|[H|H]])]]; nb.
  Qed.
  Lemma writer_error cmd loc s room : ~ writer_refusal cf co po A B cmd loc s room NoError.
  Proof.
    assert (CR : forall k h u left, ~ cert_refusal cf co po A B k h loc s u left NoError).
    { intros k h u left [H|(i & cts & _ & _ & [H|[(ce & H & _)|[(pe & H & _)|[H _]]]])]; nb. }
    intros H. destruct cmd as [|f|d|c|c|h f|h|off size|u]; try contradiction; cbn [writer_refusal] in H.
    - destruct H as (_ & u & _ & H). eapply CR; eassumption.
    - destruct c; destruct H as [[_ H]|[_ H]]; eapply CR; eassumption.
  Qed.
End Zero.

(** ** Reading *)
Lemma read_fields_app fs rest : read_fields (map (@length N) fs) (concat fs ++ rest) = Some (fs, rest).
Proof.
  induction fs as [|f fs IH]; cbn [map concat read_fields]; [reflexivity|].
  rewrite (proj2 (Nat.leb_le _ _)) by (rewrite !app_length; lia).
  rewrite <- app_assoc, firstn_app, firstn_all, Nat.sub_diag, skipn_app, skipn_all, Nat.sub_diag. cbn [firstn skipn app].
  rewrite app_nil_r, IH. reflexivity.
Qed.
Lemma read_fields_at ls fs b rest : b = concat fs ++ rest -> map (@length N) fs = ls -> read_fields ls b = Some (fs, rest).
Proof. intros -> <-. apply read_fields_app. Qed.

Lemma fields_bytes cf cmd : command_wf cf cmd -> all_bytes (concat (command_fields cmd)).
Proof.
  intros W. apply all_bytes_concat.
  destruct cmd as [|f|d|[c|c|c]|[c|c|c|c]|h f|h|o z|u]; cbn [command_fields command_wf] in *; unfold certify_wf, sign_wf, byte_string in W;
    repeat (apply Forall_cons; [first [apply all_bytes_le_bytes|tauto]|]); apply Forall_nil.
Qed.

Section Live.
  Variable cf : config.
  Hypothesis Hcf : config_ok cf.
  Variable R : Type.
  Variable pr : primitives R.
  Variables chain issuer serial ski : bytes.
  Hypothesis Hchain : chain_fits chain.
  Hypothesis Hfuel : (length chain < 2048 * (fuel cf - 1))%nat.
  Hypothesis Hissuer : (length issuer <= 128)%nat.
  Notation ops := (sim_ops cf R pr).
  Notation plat := (sim_platform chain issuer serial ski).
  Notation send := (sim_send cf R pr chain issuer serial ski).
  Notation runs := (runs_to cf R pr chain issuer serial ski).
  Notation exec := (go_exec (option (world (rust_c R) unit))).

  Lemma exec_live code p cmd body ls loc w :
    reachable cf (w_st w) -> u32 loc -> command_wf cf cmd -> WireSpec.for_profile cf cmd -> u32 p ->
    (cmd = CmdGetProfile \/ p = own_profile cf) ->
    code = request_id cmd -> body = concat (command_fields cmd) -> (N.of_nat (length body) <= 4000) ->
    exists r out w', runs cmd loc w r out w' /\
      match r with
      | Ok n => exists resp, answers cf cmd resp /\ response_bytes resp = out /\
          response_hdr_of resp = {| rh_magic := 0x44504552; rh_status := 0; rh_profile := prof cf |} /\
          exists sent, response_bytes_partial cf resp = Ok sent /\ sent = firstn (N.to_nat n) out /\
            exec (send loc) code p body ls (Some w) =
            (match read_fields [4; 4; 4]%nat sent with
             | Some ([m; st; p], r) =>
                 if negb (N.eqb (le_val m) 0x44504552) then GoErr GoMagic
                 else if negb (N.eqb (le_val st) 0) then GoErr (GoStatus (le_val st))
                 else match read_fields ls r with
                      | Some (fs, r') => GoOk (le_val p, fs, r')
                      | None => GoErr GoShort
                      end
             | _ => GoErr GoShort
             end, Some w')
      | Err e => exec (send loc) code p body ls (Some w) = (GoErr (GoStatus (get_error_code e)), Some w')
      | Crash _ => False
      end.
  Proof.
    intros Hr Ul Wc Wp Up Hp -> -> Lb.
    pose proof (reachable_wf cf Hcf _ Hr) as W.
    set (msg := le_bytes 4 0x44504543 ++ le_bytes 4 (request_id cmd) ++ le_bytes 4 p ++ concat (command_fields cmd)).
    assert (Bm : all_bytes (le_bytes 4 loc ++ msg)).
    { unfold msg. rewrite !all_bytes_app. repeat split; try apply all_bytes_le_bytes. eapply fields_bytes; eauto. }
    set (cn := {| cn_read := Some (le_bytes 4 loc ++ msg); cn_open := true |}).
    assert (Bg : brings cf cn loc cmd).
    { exists (le_bytes 4 loc ++ msg), msg. split; [reflexivity|]. split; [exact Bm|]. split.
      - apply firstn_all2. unfold msg. rewrite !app_length, !length_le_bytes. lia.
      - split; [exact Ul|]. split; [exact Wc|]. split; [exact Wp|]. exists p, []. split; [|auto].
        rewrite app_nil_r. reflexivity. }
    destruct (handle_request cf R pr chain issuer serial ski cn w) as [a w'] eqn:E.
    destruct (handle_spec cf Hcf R pr chain issuer serial ski Hchain Hfuel cn w a w' Hr ltac:(intros m Q; injection Q as <-; exact Bm) E) as [H1 _].
    destruct (H1 _ _ Bg) as (r0 & w1 & X & NC & Ew & Ea). cbn [cn_open cn] in Ea. subst a.
    exists r0, (w_out w1), w'. split; [exists w1; auto|].
    assert (ES : send loc msg (Some w) = (Some (answer_bytes cf r0 (w_out w1)), Some w')).
    { cbn [sim_send]. fold cn. rewrite E. reflexivity. }
    assert (ES' : forall ls, exec (send loc) (request_id cmd) p (concat (command_fields cmd)) ls (Some w) =
            (match read_fields [4; 4; 4]%nat (answer_bytes cf r0 (w_out w1)) with
             | Some ([m; st; p], r) =>
                 if negb (N.eqb (le_val m) 0x44504552) then GoErr GoMagic
                 else if negb (N.eqb (le_val st) 0) then GoErr (GoStatus (le_val st))
                 else match read_fields ls r with
                      | Some (fs, r') => GoOk (le_val p, fs, r')
                      | None => GoErr GoShort
                      end
             | _ => GoErr GoShort
             end, Some w')).
    { intros l. unfold go_exec. fold msg. rewrite ES. reflexivity. }
    rewrite ES'. clear ES ES' E Bg. destruct r0 as [n|e|k].
    - destruct (execute cf (rust_c R) unit ops plat (x509_gen cf (rust_c R) unit ops plat) cmd loc w) as [r2 w2] eqn:X2.
      destruct (execute_spec cf Hcf _ _ _ _ _ (x509_sane cf ops plat) _ _ _ _ _ W Wc X2) as (r3 & w3 & X3 & _ & X4).
      rewrite X in X3. injection X3 as <- <-. destruct X4 as (resp & _ & An & EB & Hd).
      exists resp. split; [exact An|]. split; [exact EB|]. split; [exact Hd|]. exists (firstn (N.to_nat n) (w_out w1)). split; [|split; reflexivity].
      apply (partial_answer cf Hcf _ _ ops plat (reference_signatures pr _ cf) cmd loc w n w1 resp W Wc Ul); auto.
      destruct cmd as [|f|d|c|[c|c|c|c]|h f|h|o zz|u]; cbn in Wp |- *; auto; symmetry; tauto.
    - f_equal. cbn [answer_bytes].
      rewrite (read_fields_at _ [le_bytes 4 0x44504552; le_bytes 4 (get_error_code e); le_bytes 4 (own_profile cf)] _ []);
        [|cbn [concat]; rewrite !app_nil_r; reflexivity|reflexivity].
      rewrite !le4 by (apply code_u32 || reflexivity). rewrite N.eqb_refl. cbn [negb].
      destruct (N.eqb_spec (get_error_code e) 0) as [Q|Q]; [|reflexivity]. exfalso. apply code_zero in Q. subst e.
      destruct (C42_reference cf R pr (backend_digest (prof cf)) chain issuer serial ski cmd loc (mkWorld (w_st w) (w_c w) (w_p w) (repeat 0 (N.to_nat (wire_size cf cmd)))) _ w1 Hcf Hissuer Hr Wc X) as [Y|Y];
        [eapply refusal_error; exact Y|eapply writer_error; exact Y].
    - eapply NC; reflexivity.
  Qed.

  (** The success header. *)
  Lemma hdr_read sent rest ls : 
    sent = concat (hdr_fields {| rh_magic := 0x44504552; rh_status := 0; rh_profile := prof cf |}) ++ rest ->
    match read_fields [4; 4; 4]%nat sent with
    | Some ([m; st; p], r) =>
        if negb (N.eqb (le_val m) 0x44504552) then GoErr GoMagic
        else if negb (N.eqb (le_val st) 0) then GoErr (GoStatus (le_val st))
        else match read_fields ls r with
             | Some (fs, r') => GoOk (le_val p, fs, r')
             | None => GoErr GoShort
             end
    | _ => GoErr GoShort
    end = match read_fields ls rest with
          | Some (fs, r') => GoOk (own_profile cf, fs, r')
          | None => GoErr GoShort
          end.
  Proof.
    intros ->. rewrite (read_fields_at [4; 4; 4]%nat _ _ rest eq_refl) by reflexivity. unfold hdr_fields.
    cbn [rh_magic rh_status rh_profile]. rewrite !le4 by (apply pid_u32 || reflexivity). cbn [N.eqb Pos.eqb negb].
    rewrite own_profile_eq. reflexivity.
  Qed.

  (** ** The calls *)
  Lemma label_digest k : digest_len k = label_size k. Proof. destruct k; reflexivity. Qed.
  Lemma data_message k : sign_data_len k = message_size k. Proof. destruct k; reflexivity. Qed.
  Lemma own_u32 : u32 (own_profile cf). Proof. unfold own_profile. destruct (prof cf); reflexivity. Qed.

  Lemma meant_wf c q : made_for cf c -> usable (cl_kind c) q ->
    command_wf cf (meant (cl_kind c) q) /\ WireSpec.for_profile cf (meant (cl_kind c) q).
  Proof.
    intros [[Sp Sd Sc] _] U. destruct q; cbn [usable meant command_wf WireSpec.for_profile dc_handle dc_data dc_flags dc_tci_type dc_target_locality dc_svn
      uc_parent_handle uc_data uc_reserved uc_tci_type uc_reserved_svn] in *; rewrite ?Sd; try tauto.
    - repeat split; try tauto; try apply U; reflexivity.
    - unfold own_profile in Sp. destruct (cl_kind c), (prof cf); try discriminate Sp; cbn [command_wf kind_profile label_size] in *;
        unfold certify_wf; cbn [ck_handle ck_flags ck_format ck_label]; tauto.
    - unfold own_profile in Sp. destruct (cl_kind c), (prof cf); try discriminate Sp; cbn [command_wf kind_profile label_size message_size WireSpec.for_profile] in *;
        unfold sign_wf; cbn [sg_handle sg_label sg_flags sg_digest]; try tauto.
    - destruct U as (Ek & Uh & Ul & Ur & Un). rewrite Ek in *. unfold own_profile in Sp. cbn [kind_profile label_size] in *.
      destruct (prof cf); try discriminate Sp. cbn [sr_handle sr_label sr_flags sr_size sr_raw].
      split; [|split; [reflexivity|split; [reflexivity|exact Un]]].
      repeat (split; [assumption || reflexivity|]). split; [unfold u32; lia|]. split.
      + rewrite app_length, repeat_length. unfold mldsa87_raw_max. lia.
      + apply all_bytes_app. split; [exact Ur|apply all_bytes_zero].
    - repeat split; try tauto; try apply U; reflexivity.
  Qed.

  Lemma meant_small c q : made_for cf c -> usable (cl_kind c) q -> N.of_nat (length (concat (command_fields (meant (cl_kind c) q)))) <= 4000.
  Proof.
    intros _ U. rewrite concat_length.
    assert (LS : (label_size (cl_kind c) <= 48)%nat) by (destruct (cl_kind c); cbn; lia).
    assert (MS : (message_size (cl_kind c) <= 64)%nat) by (destruct (cl_kind c); cbn; lia).
    destruct q; cbn [usable meant command_fields] in *; unfold byte_string in U;
      try (destruct (cl_kind c)); cbn [map list_sum fold_right length dc_handle dc_data dc_flags dc_tci_type dc_target_locality dc_svn uc_parent_handle uc_data uc_reserved uc_tci_type uc_reserved_svn
        ck_handle ck_flags ck_format ck_label sg_handle sg_label sg_flags sg_digest sr_handle sr_label sr_flags sr_size sr_raw];
      rewrite ?length_le_bytes, ?app_length, ?repeat_length; lia.
  Qed.

  Lemma partial_cert (pre cert sent : bytes) n e : length cert = N.to_nat (max_cert_size cf) ->
    prefix_or (pre ++ cert) (N.of_nat (length (pre ++ cert)) - max_cert_size cf + n) e = Ok sent ->
    sent = pre ++ firstn (N.to_nat n) cert /\ n <= max_cert_size cf /\ N.of_nat (length (firstn (N.to_nat n) cert)) = n.
  Proof.
    intros L. unfold prefix_or. rewrite app_length, L.
    destruct (N.leb_spec (N.of_nat (length pre + N.to_nat (max_cert_size cf)) - max_cert_size cf + n) (N.of_nat (length pre + N.to_nat (max_cert_size cf)))) as [Q|Q]; [|discriminate].
    intros H. injection H as <-.
    replace (N.to_nat _) with (length pre + N.to_nat n)%nat by lia. rewrite firstn_app_2. split; [reflexivity|].
    assert (n <= max_cert_size cf) by lia. split; [assumption|]. rewrite firstn_length, L. lia.
  Qed.

  Notation ok_hdr := {| rh_magic := 0x44504552; rh_status := 0; rh_profile := prof cf |}.

  Definition outcome (cmd : command) loc w (g : go_result go_value * option (world (rust_c R) unit)) : Prop :=
    exists r out w', runs cmd loc w r out w' /\
      exists v, g = (v, Some w') /\
      match r with
      | Ok n => exists resp, answers cf cmd resp /\ response_bytes resp = out /\ v = GoOk (told cf resp)
      | Err e => v = GoErr (GoStatus (get_error_code e))
      | Crash _ => False
      end.

  Lemma then_live code p cmd body ls f loc w :
    reachable cf (w_st w) -> u32 loc -> command_wf cf cmd -> WireSpec.for_profile cf cmd -> u32 p ->
    (cmd = CmdGetProfile \/ p = own_profile cf) ->
    code = request_id cmd -> body = concat (command_fields cmd) -> N.of_nat (length (concat (command_fields cmd))) <= 4000 ->
    (forall resp sent, answers cf cmd resp -> response_hdr_of resp = ok_hdr -> response_bytes_partial cf resp = Ok sent ->
       exists fs rest, sent = concat (hdr_fields ok_hdr) ++ concat fs ++ rest /\ map (@length N) fs = ls /\
         f (own_profile cf, fs, rest) = GoOk (told cf resp)) ->
    outcome cmd loc w (go_then _ (exec (send loc) code p body ls (Some w)) f).
  Proof.
    intros Hr Ul Wc Wp Up Hp Hc Hb Ws Hf. rewrite <- Hb in Ws.
    destruct (exec_live code p cmd body ls loc w Hr Ul Wc Wp Up Hp Hc Hb Ws) as (r & out & w' & Hrun & X).
    exists r, out, w'. split; [exact Hrun|]. destruct r as [n|e|k]; [|rewrite X; eexists; split; reflexivity|destruct X].
    destruct X as (resp & An & EB & Hd & sent & Hs & _ & ->). cbn [go_then]. eexists. split; [reflexivity|].
    exists resp. split; [exact An|]. split; [exact EB|].
    destruct (Hf resp sent An Hd Hs) as (fs & rest & Es & El & Ef).
    rewrite (hdr_read sent _ ls Es), (read_fields_at ls fs _ rest eq_refl El). exact Ef.
  Qed.

  Lemma sizes k : kind_profile k = own_profile cf -> max_cert_size cf <= match k with Min256 | Min384 => 2048 | Full256 | Full384 => 11264 | FullMldsa => 22528 end -> max_cert_size cf <= cert_len k.
  Proof. intros _ H. destruct k; exact H. Qed.

  Ltac body := cbn [meant command_fields concat dc_handle dc_data dc_flags dc_tci_type dc_target_locality dc_svn uc_parent_handle uc_data uc_reserved uc_tci_type uc_reserved_svn
        ck_handle ck_flags ck_format ck_label sg_handle sg_label sg_flags sg_digest sr_handle sr_label sr_flags sr_size sr_raw]; rewrite ?app_nil_r; reflexivity.

  Lemma cert_read (n : N) (cert : bytes) : N.of_nat (length (firstn (N.to_nat n) cert)) = n ->
    go_cert n (firstn (N.to_nat n) cert) = Some (firstn (N.to_nat n) cert).
  Proof.
    intros L. unfold go_cert. rewrite L, N.leb_refl. f_equal. rewrite firstn_firstn. f_equal. lia.
  Qed.

  Lemma derive_live c h data flags t l s loc w :
    let cmd := CmdDeriveContext {| dc_handle := h; dc_data := data; dc_flags := flags; dc_tci_type := t; dc_target_locality := l; dc_svn := s |} in
    reachable cf (w_st w) -> u32 loc -> command_wf cf cmd -> N.of_nat (length (concat (command_fields cmd))) <= 4000 ->
    cl_codes c = codes_v09 -> cl_profile c = own_profile cf -> u32 (cl_profile c) ->
    outcome cmd loc w (go_derive_abi _ (send loc) c h data flags t l s (Some w)).
  Proof.
    intros cmd Hr Ul Wc Ws Ec Ep PO. unfold go_derive_abi. rewrite Ec, contains_bit. cbn [codes_v09 gc_derive].
    destruct (N.testbit flags 23) eqn:B.
    - apply then_live; try assumption; try reflexivity; [right; exact Ep|].
      intros resp sent [_ A] Hd Hs. unfold cmd in A. destruct resp; try contradiction; cbn [dc_flags] in A; destruct A as [A1 A]; [congruence|].
      cbn [response_hdr_of] in Hd. subst h0. destruct A as ([Lx _] & [Ly _] & [Lz _] & Un & [Lc _]).
      cbn [response_bytes_partial] in Hs. unfold response_bytes in Hs. cbn [response_fields] in Hs. 
      replace (concat (hdr_fields ok_hdr ++ [handle; parent; cdi; le_bytes 4 size; cert]))
        with ((concat (hdr_fields ok_hdr) ++ concat [handle; parent; cdi; le_bytes 4 size]) ++ cert) in Hs
        by (rewrite concat_app; cbn [concat]; rewrite <- !app_assoc, !app_nil_r; reflexivity).
      apply partial_cert in Hs as (-> & Hn & Hl); [|exact Lc].
      exists [handle; parent; cdi; le_bytes 4 size], (firstn (N.to_nat size) cert). rewrite <- app_assoc. split; [reflexivity|].
      split; [cbn [map]; rewrite Lx, Ly, Lz, length_le_bytes; reflexivity|]. rewrite le4 by exact Un. rewrite cert_read by exact Hl. reflexivity.
    - apply then_live; try assumption; try reflexivity; [right; exact Ep|].
      intros resp sent [_ A] Hd Hs. unfold cmd in A. destruct resp; try contradiction; cbn [dc_flags] in A; destruct A as [A1 A]; [|congruence].
      cbn [response_hdr_of] in Hd. subst h0. destruct A as ([Lx _] & [Ly _]).
      injection Hs as <-. exists [handle; parent], []. unfold response_bytes. cbn [response_fields]. rewrite concat_app, app_nil_r.
      split; [reflexivity|]. split; [cbn [map]; rewrite Lx, Ly; reflexivity|reflexivity].
  Qed.

  Lemma certify_shape p h x pk n cert sent : length cert = N.to_nat (max_cert_size cf) ->
    response_bytes_partial cf (RespCertifyKey p h x pk n cert) = Ok sent ->
    sent = concat (hdr_fields h) ++ (x ++ pk ++ le_bytes 4 n) ++ firstn (N.to_nat n) cert /\ n <= max_cert_size cf /\
    N.of_nat (length (firstn (N.to_nat n) cert)) = n.
  Proof.
    intros Lc Hs. cbn [response_bytes_partial] in Hs. unfold response_bytes in Hs. cbn [response_fields] in Hs.
    assert (E : concat (hdr_fields h ++ [x; pk; le_bytes 4 n; cert]) = (concat (hdr_fields h) ++ (x ++ pk ++ le_bytes 4 n)) ++ cert)
      by (rewrite concat_app; cbn [concat]; rewrite <- !app_assoc, !app_nil_r; reflexivity).
    unfold bytes in *. rewrite E in Hs. apply (partial_cert (concat (hdr_fields h) ++ (x ++ pk ++ le_bytes 4 n)) cert) in Hs as (-> & Hn & Hl); [|exact Lc]. rewrite <- app_assoc. auto.
  Qed.

  Theorem calls_live c q loc w :
    reachable cf (w_st w) -> u32 loc -> made_for cf c -> usable (cl_kind c) q ->
    outcome (meant (cl_kind c) q) loc w (go_do _ (send loc) c q (Some w)).
  Proof.
    intros Hr Ul MF U. destruct (meant_wf c q MF U) as [Wc Wp]. pose proof (meant_small c q MF U) as Ws.
    destruct MF as ([Sp Sd Sc] & Ec & Ep). apply sizes in Sc; [|exact Sp].
    pose proof (fun code p body ls f => then_live code p (meant (cl_kind c) q) body ls f loc w Hr Ul Wc Wp) as X. clear Wp.
    assert (PO : u32 (cl_profile c)) by (rewrite Ep; apply own_u32).
    destruct q; cbn [go_do]; unfold go_get_profile, go_handle; rewrite ?Ec; cbn [codes_v09 gc_init gc_derive gc_certify gc_sign gc_rotate gc_destroy gc_update].
    - apply X; try assumption; try reflexivity; [left; reflexivity|].
      intros resp sent [_ A] Hd Hs. destruct resp; try contradiction. cbn [response_hdr_of] in Hd. subst h.
      injection Hs as <-. eexists. exists []. unfold response_bytes. cbn [response_fields]. rewrite concat_app, app_nil_r.
      split; [reflexivity|]. split; [reflexivity|]. destruct A as ((A1 & A2) & A3 & A4 & A5 & A6).
      rewrite !le4, !le2 by assumption. reflexivity.
    - apply X; try assumption; try reflexivity; try (right; exact Ep); try body.
      intros resp sent [_ A] Hd Hs. destruct resp; try contradiction. cbn [response_hdr_of] in Hd. subst h.
      injection Hs as <-. exists [handle], []. unfold response_bytes. cbn [response_fields]. rewrite concat_app, app_nil_r.
      split; [reflexivity|]. split; [cbn [map]; rewrite (proj1 A); reflexivity|reflexivity].
    - rewrite label_digest, (proj2 (Nat.eqb_eq _ _)) by apply U. cbn [negb]. apply derive_live; assumption.
    - apply derive_live; assumption.
    - rewrite label_digest, (proj2 (Nat.eqb_eq _ _)) by apply U. cbn [negb]. unfold go_certify_abi. rewrite Ec. cbn [codes_v09 gc_certify].
      cbn [meant] in X. unfold own_profile in *. destruct (cl_kind c), (prof cf) eqn:Pf; try discriminate Sp; rewrite Ep in *; cbn [N.eqb Pos.eqb curve_len].
      + apply X; try assumption; try reflexivity; try (right; reflexivity); try body.
        intros resp sent [_ A] Hd Hs. destruct resp; try contradiction. cbn [response_hdr_of] in Hd. subst h0.
        destruct A as (-> & [Lx _] & [Lp _] & Un & [Lc _]). cbn [certify_profile] in *. apply certify_shape in Hs as (-> & Hn & Hl); [|exact Lc].
        exists [handle; firstn 32 pk; skipn 32 pk; le_bytes 4 size], (firstn (N.to_nat size) cert). split.
        { cbn [concat]. rewrite app_nil_r. rewrite <- (firstn_skipn 32 pk) at 1. rewrite <- !app_assoc. reflexivity. }
        split; [cbn [map]; rewrite Lx, firstn_length, skipn_length, Lp, length_le_bytes; reflexivity|].
        rewrite le4 by exact Un. rewrite (proj2 (N.ltb_ge _ _)) by lia. rewrite cert_read by exact Hl. reflexivity.
      + apply X; try assumption; try reflexivity; try (right; reflexivity); try body.
        intros resp sent [_ A] Hd Hs. destruct resp; try contradiction. cbn [response_hdr_of] in Hd. subst h0.
        destruct A as (-> & [Lx _] & [Lp _] & Un & [Lc _]). cbn [certify_profile] in *. apply certify_shape in Hs as (-> & Hn & Hl); [|exact Lc].
        exists [handle; firstn 48 pk; skipn 48 pk; le_bytes 4 size], (firstn (N.to_nat size) cert). split.
        { cbn [concat]. rewrite app_nil_r. rewrite <- (firstn_skipn 48 pk) at 1. rewrite <- !app_assoc. reflexivity. }
        split; [cbn [map]; rewrite Lx, firstn_length, skipn_length, Lp, length_le_bytes; reflexivity|].
        rewrite le4 by exact Un. rewrite (proj2 (N.ltb_ge _ _)) by lia. rewrite cert_read by exact Hl. reflexivity.
      + apply X; try assumption; try reflexivity; try (right; reflexivity); try body.
        intros resp sent [_ A] Hd Hs. destruct resp; try contradiction. cbn [response_hdr_of] in Hd. subst h0.
        destruct A as (-> & [Lx _] & [Lp _] & Un & [Lc _]). cbn [certify_profile] in *. apply certify_shape in Hs as (-> & Hn & Hl); [|exact Lc].
        exists [handle; pk; le_bytes 4 size], (firstn (N.to_nat size) cert). split.
        { cbn [concat]. rewrite app_nil_r, <- !app_assoc. reflexivity. }
        split; [cbn [map]; rewrite Lx, Lp, length_le_bytes; reflexivity|].
        rewrite le4 by exact Un. rewrite (proj2 (N.ltb_ge _ _)) by lia. rewrite cert_read by exact Hl. reflexivity.
    - rewrite label_digest, data_message, !(proj2 (Nat.eqb_eq _ _)) by apply U. cbn [negb]. unfold go_sign_abi. rewrite Ec. cbn [codes_v09 gc_sign].
      cbn [meant] in X. unfold own_profile in *. destruct (cl_kind c), (prof cf) eqn:Pf; try discriminate Sp; rewrite Ep in *; cbn [digest_len].
      + apply X; try assumption; try reflexivity; try (right; reflexivity); try body.
        intros resp sent [_ A] Hd Hs. destruct resp; try contradiction. cbn [response_hdr_of] in Hd. subst h0.
        destruct A as (-> & [Lx _] & [Lp _]). cbn [sign_profile] in *. injection Hs as <-.
        exists [handle; firstn 32 sig; skipn 32 sig], []. unfold response_bytes. cbn [response_fields]. rewrite concat_app, app_nil_r. split.
        { f_equal. cbn [concat]. rewrite !app_nil_r, firstn_skipn. reflexivity. }
        split; [cbn [map]; rewrite Lx, firstn_length, skipn_length, Lp; reflexivity|reflexivity].
      + apply X; try assumption; try reflexivity; try (right; reflexivity); try body.
        intros resp sent [_ A] Hd Hs. destruct resp; try contradiction. cbn [response_hdr_of] in Hd. subst h0.
        destruct A as (-> & [Lx _] & [Lp _]). cbn [sign_profile] in *. injection Hs as <-.
        exists [handle; firstn 48 sig; skipn 48 sig], []. unfold response_bytes. cbn [response_fields]. rewrite concat_app, app_nil_r. split.
        { f_equal. cbn [concat]. rewrite !app_nil_r, firstn_skipn. reflexivity. }
        split; [cbn [map]; rewrite Lx, firstn_length, skipn_length, Lp; reflexivity|reflexivity].
      + apply X; try assumption; try reflexivity; try (right; reflexivity); try body.
        intros resp sent [_ A] Hd Hs. destruct resp; try contradiction. cbn [response_hdr_of] in Hd. subst h0.
        destruct A as (-> & [Lx _] & [Lp _]). cbn [sign_profile] in *. injection Hs as <-.
        exists [handle; firstn (N.to_nat 4627) sig], (skipn (N.to_nat 4627) sig). unfold response_bytes. cbn [response_fields]. rewrite concat_app. split.
        { f_equal. cbn [concat]. rewrite !app_nil_r, <- app_assoc, firstn_skipn. reflexivity. }
        split; [cbn [map]; rewrite Lx, firstn_length, Lp; f_equal; f_equal; lia|reflexivity].
    - destruct U as (Ek & U). unfold go_sign_raw. rewrite Ek in *. cbn [kind_profile label_size] in *. rewrite <- Sp in Ep. rewrite Ep.
      change (negb (5 =? 5)) with false. cbv iota. rewrite (proj2 (Nat.eqb_eq _ _)) by apply U. cbn [negb].
      rewrite (proj2 (N.ltb_ge _ _)) by apply U. rewrite Ec. cbn [codes_v09 gc_sign]. rewrite Ep in PO.
      assert (Pf : prof cf = Mldsa87) by (unfold own_profile in Sp; destruct (prof cf); try discriminate Sp; reflexivity).
      apply X; try assumption; try reflexivity; try (right; exact Sp).
      { body. }
      intros resp sent [_ A] Hd Hs. destruct resp; try contradiction. cbn [response_hdr_of] in Hd. subst h0.
      destruct A as (-> & [Lx _] & [Lp _]). cbn [sign_profile] in *. injection Hs as <-.
      exists [handle; firstn (N.to_nat 4627) sig; skipn (N.to_nat 4627) sig], []. unfold response_bytes. cbn [response_fields]. rewrite concat_app, app_nil_r. split.
      { f_equal. cbn [concat]. rewrite !app_nil_r, firstn_skipn. reflexivity. }
      split; [cbn [map]; rewrite Lx, firstn_length, skipn_length, Lp; repeat f_equal; lia|reflexivity].
    - apply X; try assumption; try reflexivity; try (right; exact Ep); try body.
      intros resp sent [_ A] Hd Hs. destruct resp; try contradiction. cbn [response_hdr_of] in Hd. subst h0.
      injection Hs as <-. exists [handle], []. unfold response_bytes. cbn [response_fields]. rewrite concat_app, app_nil_r.
      split; [reflexivity|]. split; [cbn [map]; rewrite (proj1 A); reflexivity|reflexivity].
    - apply X; try assumption; try reflexivity; try (right; exact Ep); try body.
      intros resp sent [_ A] Hd Hs. destruct resp; try contradiction. cbn [response_hdr_of] in Hd. subst h0.
      injection Hs as <-. exists [], []. unfold response_bytes. cbn [response_fields]. cbn [concat]. rewrite !app_nil_r.
      split; [reflexivity|]. split; reflexivity.
    - rewrite label_digest, (proj2 (Nat.eqb_eq _ _)) by apply U. cbn [negb].
      apply X; try assumption; try reflexivity; try (right; exact Ep); try body.
      intros resp sent [_ A] Hd Hs. destruct resp; try contradiction. cbn [response_hdr_of] in Hd. subst h0.
      injection Hs as <-. exists [handle; parent], []. unfold response_bytes. cbn [response_fields]. rewrite concat_app, app_nil_r.
      split; [reflexivity|]. split; [cbn [map]; rewrite (proj1 (proj1 A)), (proj1 (proj2 A)); reflexivity|reflexivity].
  Qed.
End Live.
