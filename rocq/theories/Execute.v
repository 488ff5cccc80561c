(** Execute.v -- proofs about [execute] and [execute_serialized_command]: the
    response structures handed to Rust callers are exactly the bytes the command
    wrote. *)
From Verif Require Import Base Errors Types StateOps Env Wire Instance Commands RespBuf Response Lib Spec Exec
  Effects Forest DestroyProofs History Contract Steps Reach Denials CommandSpecs Responses WireSpec Codec.
Local Open Scope nat_scope.

Lemma firstn_repeat {A} n m (x : A) : firstn n (repeat x m) = repeat x (Nat.min n m).
Proof. revert m. induction n as [|n IH]; intros [|m]; cbn; [reflexivity|reflexivity|reflexivity|]. rewrite IH. reflexivity. Qed.

Section Execute.
  Variable cf : config.
  Hypothesis Hcf : config_ok cf.
  Variables C P : Type.
  Variable co : crypto_ops C.
  Variable po : platform_ops P.
  Variable cg : cert_kind -> cert_args -> nat -> state -> C -> P -> bytes ->
                result cert_result * C * P * bytes.
  Hypothesis Hsw : sane_writer cf cg.

  Lemma hdr_bytes : all_bytes (ok_hdr_bytes cf).
  Proof.
    unfold ok_hdr_bytes, response_hdr_bytes. rewrite !all_bytes_app. auto using all_bytes_le_bytes.
  Qed.
  Lemma handle_bytes s i c : wf cf s -> at_slot s i c -> all_bytes (c_handle c).
  Proof. intros W H. apply (so_handle _ _ _ (wf_slot _ _ W i c H)). Qed.
  Lemma rolled_bytes s c c' : all_bytes (c_handle c) -> rolled s c c' -> all_bytes (c_handle c').
  Proof. intros L [[_ ->]|(_ & h & (_ & _ & H & _) & ->)]; [exact L|]. exact H. Qed.
  Lemma default_bytes : all_bytes default_handle.
  Proof. apply all_bytes_zero. Qed.
  Lemma invalid_bytes : all_bytes invalid_handle.
  Proof. apply Forall_forall. intros x Hx. apply repeat_spec in Hx. subst x. reflexivity. Qed.

  Definition fine (b b' : bytes) : Prop := length b' = length b /\ (all_bytes b -> all_bytes b').

  Lemma overwrite_fine b bs : length bs <= length b -> all_bytes bs -> fine b (overwrite b 0 bs).
  Proof.
    intros L B. unfold overwrite. cbn [firstn app Nat.add]. split.
    - rewrite app_length, skipn_length. lia.
    - intros Bb. apply all_bytes_app. split; [exact B|apply all_bytes_skipn; exact Bb].
  Qed.
  Lemma fine_trans a b c : fine a b -> fine b c -> fine a c.
  Proof. unfold fine. intros [? ?] [? ?]. split; [congruence|auto]. Qed.

  Lemma run_cert_fine k a o w r (w' : world C P) :
    run_cert C P cg k a o w = (Ok r, w') -> wf cf (w_st w) -> all_bytes (ca_ueid a) -> fine (w_out w) (w_out w').
  Proof.
    unfold run_cert. destruct (cg k a o (w_st w) (w_c w) (w_p w) (w_out w)) as [[[r0 c0] p0] o0] eqn:E.
    intros H W U; inversion H; subst. cbn. apply Hsw in E as [L B]. split; [exact L|eauto].
  Qed.

  Lemma ueid_bytes u b : ueid_get u = Some b -> all_bytes b.
  Proof.
    unfold ueid_get. destruct (N.leb _ _); [|discriminate]. intros H; inversion H; subst.
    apply all_bytes_firstn, all_bytes_to_buf.
  Qed.

  Lemma finish_fine (w : world C P) s' bs n w' : all_bytes bs -> finish C P w s' bs (Ok n) w' ->
    fine (w_out w) (w_out w').
  Proof. intros B H. apply finish_ok in H as (_ & -> & _ & L). apply overwrite_fine; assumption. Qed.

  Lemma pubkey_fine p k pk : pubkey_bytes p k = Some pk -> all_bytes pk.
  Proof.
    destruct p, k; cbn [pubkey_bytes]; intros H; inversion H; subst; rewrite ?all_bytes_app;
      auto using all_bytes_to_buf.
  Qed.
  Lemma signature_fine sg sb : signature_bytes cf sg = Some sb -> all_bytes sb.
  Proof.
    destruct sg; cbn [signature_bytes]; intros H;
      match type of H with (if ?b then _ else _) = _ => destruct b; [|discriminate] end;
      inversion H; rewrite all_bytes_app; split; auto using all_bytes_to_buf.
    apply (all_bytes_zero 1).
  Qed.
  Lemma new_resp_bytes h : all_bytes h -> all_bytes (new_handle_resp_bytes cf h).
  Proof. intros H. unfold new_handle_resp_bytes. rewrite all_bytes_app. auto using hdr_bytes. Qed.
  Lemma two_resp_bytes h h2 : all_bytes h -> all_bytes h2 -> all_bytes (two_handle_resp_bytes cf h h2).
  Proof. intros H H2. unfold two_handle_resp_bytes. rewrite !all_bytes_app. auto using hdr_bytes. Qed.

  (** A successful command leaves a buffer of the same size, holding bytes. *)
  Theorem command_fine cmd loc w n w' :
    wf cf (w_st w) -> command_wf cf cmd ->
    exec_command cf C P co po cg cmd loc w = (Ok n, w') -> fine (w_out w) (w_out w').
  Proof.
    intros W Wc H. destruct cmd; cbn [exec_command] in H.
    - unfold exec_get_profile in H. mstep H.
      apply bind_inv in H as [(b & w1 & E & H)|[(x & E & X)|(k & E & X)]]; try discriminate.
      assert (O : w_out w1 = w_out w /\ all_bytes b).
      { unfold get_profile in E.
        apply bind_inv in E as [(a & w2 & E & H2)|[(x & E & X)|(k & E & X)]]; try discriminate.
        apply bind_inv in H2 as [(a1 & w3 & E1 & H2)|[(x & E1 & X)|(k & E1 & X)]]; try discriminate.
        apply ret_inv in H2 as [H2 ->]. apply Ok_inj in H2. subst b.
        apply keeps_platform in E as [_ E]. apply keeps_platform in E1 as [_ E1]. split; [congruence|].
        unfold get_profile_resp_bytes. rewrite !all_bytes_app. repeat split; auto using all_bytes_le_bytes, hdr_bytes. }
      destruct O as [O B]. apply respond_inv in H as [_ [(L & Hn & Ho)|(_ & X & _)]]; [|discriminate].
      rewrite Ho, <- O. apply overwrite_fine; assumption.
    - apply exec_init_inv in H as [[_ N]|(s' & bs & (k & h & Hf & -> & D) & H)]; [exfalso; eapply N; reflexivity|].
      eapply finish_fine; [|exact H]. apply new_resp_bytes.
      destruct D as [(_ & _ & _ & -> & ->)|(_ & _ & _ & (_ & _ & G & _) & ->)]; [apply default_bytes|exact G].
    - apply exec_derive_inv in H as [(_ & N & _)|[(s' & bs & Hd & H)|[(s' & bs & Hd & H)|(s' & w2 & cr & ph & Hd & H)]]].
      + exfalso; eapply N; reflexivity.
      + eapply finish_fine; [|exact H].
        destruct Hd as (i & c0 & c' & dg & (_ & Hf & Hc & _) & Hr & _ & _ & _ & _ & R & -> & ->).
        apply two_resp_bytes; [|apply default_bytes]. eapply rolled_bytes; [|exact R]. cbn. eapply handle_bytes; eauto.
      + eapply finish_fine; [|exact H].
        destruct Hd as (p & pc & pc' & k & h & dg & (_ & Hf & Hp & _) & Hr & _ & _ & Ht & Hk & _ & _ & Hh & _ & _ & _ & Hs' & ->).
        apply two_resp_bytes.
        * destruct Hh as [[_ ->]|[_ (_ & _ & G & _)]]; [apply default_bytes|exact G].
        * destruct Ht as [[_ R]|[_ ->]]; [|apply invalid_bytes]. eapply rolled_bytes; [|exact R]. eapply handle_bytes; eauto.
      + pose proof (export_done_spec cf C P po cg Hcf _ _ _ _ _ _ _ W Hd) as (B & B2 & _).
        destruct Hd as (p & pc & pc' & u & ue & w1 & (_ & Hf & Hp & _) & _ & _ & _ & _ & Ht & Hst & Ho & Hu & Hrun & Hs).
        apply run_cert_fine in Hrun; [|rewrite Hst; exact W|eapply ueid_bytes; exact (proj1 Hu)]. rewrite Ho in Hrun.
        destruct H as [Hw [(Hl & Hn & Hout)|(_ & X & _)]]; [|discriminate]. cbv zeta in Hout, Hl.
        eapply fine_trans; [exact Hrun|]. rewrite Hout. apply overwrite_fine; [exact Hl|].
        unfold exported_hdr_bytes. rewrite !all_bytes_app. repeat split; auto using hdr_bytes, invalid_bytes, all_bytes_to_buf, all_bytes_le_bytes.
        destruct Hs as [(_ & -> & ->)|(_ & _ & Hdd & pd & Hpd & ->)].
        * destruct Ht as [[_ R]|[_ ->]]; [|apply invalid_bytes]. eapply rolled_bytes; [|exact R]. eapply handle_bytes; eauto.
        * apply (destroy_spec cf Hcf) in Hdd; [|apply W]. destruct Hdd as (t & Hft & _ & _ & Hpr).
          destruct (Hpr p pc Hp) as (x & Hx & K1 & _). rewrite (at_det _ _ _ _ Hpd Hx).
          assert (t = p).
          { destruct Hf as [Hn1 Hl1], Hft as [Hn2 Hl2]. destruct (lt_eq_lt_dec t p) as [[?|?]|?]; auto.
            - exfalso; eapply Hl1; eauto.
            - exfalso; eapply Hl2; eauto. }
          subst t. destruct (K1 (doomed_target _ _)) as (_ & -> & _). apply invalid_bytes.
    - apply exec_certify_inv in H as [[_ N]|(s' & w1 & cr & nh & (i & ctx & _ & Hrun & Hr) & K & H)]; [exfalso; eapply N; reflexivity|].
      apply run_cert_fine in Hrun; [|exact W|destruct c; apply Wc].
      destruct Hr as (i' & c0 & c' & Hf & Hc & R & Hs & ->).
      destruct (pubkey_bytes (certify_profile c) (cr_pubkey cr)) as [pk|] eqn:PK; [|destruct H; discriminate].
      cbv zeta in H. destruct H as [(Hl & Hn & Ho)|(_ & X & _)]; [|discriminate].
      eapply fine_trans; [exact Hrun|]. rewrite Ho. apply overwrite_fine; [exact Hl|].
      unfold certify_hdr_bytes. rewrite !all_bytes_app. repeat split; auto using hdr_bytes, all_bytes_le_bytes.
      + eapply rolled_bytes; [|exact R]. eapply handle_bytes; eauto.
      + eapply pubkey_fine; exact PK.
    - apply exec_sign_inv in H as [[_ N]|(s' & bs & Hd & H)]; [exfalso; eapply N; reflexivity|].
      eapply finish_fine; [|exact H].
      destruct Hd as (h & lb & da & i & ctx & sg & sb & nh & w1 & Hi & _ & _ & _ & _ & Hsb & Hr & ->).
      destruct Hr as (i' & c0 & c' & Hf & Hc & R & Hs & ->).
      unfold sign_resp_bytes. rewrite !all_bytes_app. repeat split; auto using hdr_bytes.
      + eapply rolled_bytes; [|exact R]. eapply handle_bytes; eauto.
      + eapply signature_fine; exact Hsb.
    - apply exec_rotate_inv in H as [[_ N]|(s' & bs & (i & c & nh & _ & Hf & Hc & -> & -> & D) & H)]; [exfalso; eapply N; reflexivity|].
      eapply finish_fine; [|exact H]. apply new_resp_bytes.
      destruct D as [(_ & -> & _)|(_ & _ & _ & G & _)]; [apply default_bytes|exact G].
    - apply exec_destroy_inv in H as [[_ N]|(s' & Hd & H)]; [exfalso; eapply N; reflexivity|].
      eapply finish_fine; [|exact H]. apply hdr_bytes.
    - unfold exec_get_chain in H. mstep H; [discriminate|].
      apply bind_inv in H as [([[len|e0] buf] & w1 & E & H)|[(x & E & X)|(k & E & X)]]; try discriminate.
      assert (O : w_out w1 = w_out w /\ all_bytes buf).
      { unfold cert_chain_call in E. destruct (po_certificate_chain po _ _ _ _) as [[? ?] ?].
        inversion E; subst. split; [reflexivity|apply all_bytes_to_buf]. }
      destruct O as [O Bb].
      apply respond_inv in H as [_ [(L & Hn & Ho)|(_ & X & _)]]; [|discriminate].
      rewrite Ho, <- O. apply overwrite_fine; [exact L|].
      unfold cert_chain_resp_bytes. rewrite !all_bytes_app. auto using hdr_bytes, all_bytes_le_bytes.
    - apply exec_update_inv in H as [[_ N]|(s1 & p & i & pc & pc' & cc & c1 & Hh & [(_ & _ & N)|(c2 & R2 & H)])];
        [exfalso; eapply N; reflexivity|exfalso; eapply N; reflexivity|].
      eapply finish_fine; [|exact H].
      destruct Hh as (Hd & Hf & Hp & Hpos & Hcc & (dg & _ & _ & ->) & R & ->).
      apply two_resp_bytes.
      + eapply rolled_bytes; [|exact R2]; cbn; eapply handle_bytes; eauto.
      + eapply rolled_bytes; [|exact R]; eapply handle_bytes; eauto.
  Qed.

  Lemma split_total l b : list_sum l = length b -> exists fs, split_fields l b = Some fs /\ map (@length N) fs = l.
  Proof.
    revert b. induction l as [|k l IH]; intros b H; cbn [split_fields]; [exists []; auto|].
    change (list_sum (k :: l)) with (k + list_sum l) in H.
    replace (Nat.leb k (length b)) with true by (symmetry; apply Nat.leb_le; lia).
    destruct (IH (skipn k b)) as (fs & -> & E); [rewrite skipn_length; lia|].
    exists (firstn k b :: fs). split; [reflexivity|]. cbn [map]. rewrite firstn_length, E. f_equal. lia.
  Qed.

  (** A buffer of the right size with a success header always parses. *)
  Lemma read_exact_success cmd b :
    all_bytes b -> length b = response_size cf cmd -> success_header cf b ->
    exists r, read_exact cf cmd b = Some r /\ answers cf cmd r /\ response_bytes r = b /\
      response_hdr_of r = {| rh_magic := 0x44504552; rh_status := 0; rh_profile := prof cf |}.
  Proof.
    intros Hb Hl Hs. unfold read_exact. rewrite Hl, Nat.eqb_refl.
    enough (exists r, read_prefix cf cmd b = Some r /\
      response_hdr_of r = {| rh_magic := 0x44504552; rh_status := 0; rh_profile := prof cf |}) as (r & E & Eh).
    { exists r. split; [exact E|]. apply read_prefix_inv in E as (A & rest & ->); [|exact Hb].
      split; [exact A|]. split; [|exact Eh]. rewrite app_length, (response_length _ _ _ A) in Hl.
      destruct rest; [rewrite app_nil_r; reflexivity|cbn in Hl; lia]. }
    destruct (split_total (response_layout cf cmd) b) as (fs & E & Lf); [rewrite Hl; reflexivity|].
    unfold read_prefix. rewrite E. apply split_fields_inv in E as (_ & rest & ->).
    unfold response_layout in Lf. cbn [app] in Lf.
    destruct fs as [|m [|st [|p fs]]]; try discriminate. injection Lf as Lm Ls Lp Lf.
    unfold success_header, slice in Hs. cbn [skipn concat] in Hs.
    assert (Hs' : m ++ st ++ p = le_bytes 4 0x44504552 ++ le_bytes 4 0 ++
                   le_bytes 4 (match prof cf with P256Sha256 => 3 | P384Sha384 => 4 | Mldsa87 => 5 end)).
    { rewrite <- Hs. rewrite <- !app_assoc, !app_assoc, <- (app_assoc m st p).
      rewrite <- !app_assoc, (app_assoc st p), (app_assoc m (st ++ p)).
      rewrite firstn_app. replace (12 - length (m ++ st ++ p)) with 0 by (rewrite !app_length; lia).
      rewrite firstn_O, app_nil_r, firstn_all2 by (rewrite !app_length; lia). reflexivity. }
    clear Hs.
    assert (m = le_bytes 4 0x44504552 /\ st = le_bytes 4 0 /\
            p = le_bytes 4 (match prof cf with P256Sha256 => 3 | P384Sha384 => 4 | Mldsa87 => 5 end)) as (-> & -> & ->).
    { assert (Q : forall a b c d : bytes, length a = length c -> a ++ b = c ++ d -> a = c /\ b = d).
      { induction a as [|x a IH]; intros b0 [|y c0] d0 L0 E0; try discriminate; [split; [reflexivity|exact E0]|].
        cbn in *. injection E0 as -> E0. destruct (IH b0 c0 d0) as [-> ->]; [lia|exact E0|]. auto. }
      apply Q in Hs' as [-> Hs']; [|rewrite Lm; reflexivity].
      apply Q in Hs' as [-> Hs']; [|rewrite Ls; reflexivity]. auto. }
    unfold build_response.
    assert (Ep : profile_of cf (le_val (le_bytes 4 (match prof cf with P256Sha256 => 3 | P384Sha384 => 4 | Mldsa87 => 5 end)))
                 = Some (prof cf)).
    { replace (match prof cf with P256Sha256 => 3 | P384Sha384 => 4 | Mldsa87 => 5 end)%N with (profile_id (prof cf))
        by (destruct (prof cf); reflexivity).
      rewrite le4 by apply pid_u32. apply profile_of_id. destruct Hcf as (_ & Hp & _).
      unfold profile_enabled in Hp. destruct (prof cf); exact Hp. }
    rewrite Ep. clear Ep.
    change (le_val (le_bytes 4 0x44504552)) with 0x44504552%N. change (le_val (le_bytes 4 0)) with 0%N.
    destruct cmd as [|f|d|c|c|h f|h|o z|u]; try destruct (df_export_cdi (dc_flags d));
      repeat (destruct fs as [|? fs]; try discriminate Lf; try (cbn [map] in Lf; injection Lf as ? Lf));
      eexists; split; reflexivity.
  Qed.

  (** The structure returned is what the command wrote. *)
  Theorem execute_spec cmd loc w r w' :
    wf cf (w_st w) -> command_wf cf cmd -> execute cf C P co po cg cmd loc w = (r, w') ->
    exists r0 w1,
      exec_command cf C P co po cg cmd loc
        (mkWorld (w_st w) (w_c w) (w_p w) (repeat 0%N (N.to_nat (wire_size cf cmd)))) = (r0, w1) /\
      w' = mkWorld (w_st w1) (w_c w1) (w_p w1) (w_out w) /\
      match r0 with
      | Ok _ => exists resp, r = Ok resp /\ answers cf cmd resp /\ response_bytes resp = w_out w1 /\
          response_hdr_of resp = {| rh_magic := 0x44504552; rh_status := 0; rh_profile := prof cf |}
      | Err e => r = Err e
      | Crash k => r = Crash k
      end.
  Proof.
    intros W Wc H. unfold execute in H. rewrite size_wire in H. unfold with_out in H.
    set (w0 := mkWorld (w_st w) (w_c w) (w_p w) (repeat 0%N (N.to_nat (wire_size cf cmd)))) in *.
    destruct (exec_command cf C P co po cg cmd loc w0) as [r0 w1] eqn:E. exists r0, w1. split; [reflexivity|].
    unfold bind in H. fold w0 in H. rewrite E in H.
    destruct r0 as [n|e|k]; [|inversion H; subst; auto|inversion H; subst; auto].
    assert (W0 : wf cf (w_st w0)) by exact W.
    destruct (command_reported cf Hcf C P co po cg _ _ _ _ _ W0 E) as [Hh _].
    destruct (command_fine _ _ _ _ _ W0 Wc E) as [Hl Hb].
    destruct (read_exact_success cmd (w_out w1)) as (resp & Er & A & B & D); auto.
    - apply Hb, all_bytes_zero.
    - rewrite Hl, size_wire. apply repeat_length.
    - rewrite Er in H. cbn in H. inversion H; subst. split; [reflexivity|]. exists resp. auto.
  Qed.

  Lemma reported_12 cmd loc s s' o n : reported cmd loc s s' o n -> (12 <= n)%N.
  Proof.
    destruct cmd as [|f|d|c|c|h f|h|of z|u]; cbn [reported]; intros H; try (destruct H; lia); try lia.
    destruct H as (p & pc & _ & _ & H).
    destruct (N.testbit (dc_flags d) 24); [destruct H; lia|].
    destruct (N.testbit (dc_flags d) 23); destruct H; lia.
  Qed.

  (** The client can read every response that was sent. *)
  Theorem wire_spec cmd loc w n w' :
    wf cf (w_st w) -> command_wf cf cmd -> all_bytes (w_out w) -> exec_command cf C P co po cg cmd loc w = (Ok n, w') ->
    let sent := firstn (N.to_nat n) (w_out w') in
    exists resp, try_read_from_bytes cf cmd sent = Ok resp /\ answers cf cmd resp /\
      response_hdr_of resp = {| rh_magic := 0x44504552; rh_status := 0; rh_profile := prof cf |} /\
      response_bytes resp = firstn (N.to_nat (wire_size cf cmd)) (sent ++ repeat 0%N (N.to_nat (wire_size cf cmd))).
  Proof.
    intros W Wc B E sent.
    destruct (command_reported cf Hcf C P co po cg _ _ _ _ _ W E) as [Hh R]. apply reported_12 in R.
    destruct (command_fine _ _ _ _ _ W Wc E) as [Hl Hb]. specialize (Hb B).
    assert (Hs : success_header cf sent).
    { unfold success_header, slice, sent in *. cbn [skipn] in *. rewrite firstn_firstn, Nat.min_l by lia. exact Hh. }
    assert (L12 : 12 <= length sent).
    { unfold success_header, slice in Hs. apply (f_equal (@length N)) in Hs.
      rewrite firstn_length, !app_length, !length_le_bytes in Hs. cbn [skipn] in Hs. lia. }
    assert (Bs : all_bytes sent) by (apply all_bytes_firstn; exact Hb).
    set (S := N.to_nat (wire_size cf cmd)).
    assert (HS : 12 <= S).
    { subst S. unfold wire_size. destruct cmd as [|f|d|c|c|h f|h|of z|u]; try lia.
      - destruct (N.testbit (dc_flags d) 23); lia.
      - destruct (certify_profile c); lia.
      - destruct (sign_profile c); lia. }
    destruct (read_exact_success cmd (firstn S (sent ++ repeat 0%N S))) as (resp & Er & A & Eb & Eh).
    - apply all_bytes_firstn, all_bytes_app. split; [exact Bs|apply all_bytes_zero].
    - rewrite firstn_length, app_length, repeat_length, size_wire. subst S. lia.
    - unfold success_header, slice in *. cbn [skipn] in *.
      rewrite firstn_firstn, Nat.min_l by exact HS. rewrite firstn_app.
      replace (12 - length sent) with 0 by lia. rewrite firstn_O, app_nil_r. exact Hs.
    - exists resp. split; [|auto]. rewrite try_read_padded.
      unfold read_exact in Er.
      destruct (Nat.eqb (length (firstn S (sent ++ repeat 0%N S))) (response_size cf cmd)); [|discriminate].
      rewrite <- (read_prefix_firstn cf cmd _ S) by (rewrite size_wire; reflexivity).
      rewrite size_wire. fold S.
      replace (firstn S (sent ++ repeat 0%N (S - length sent))) with (firstn S (sent ++ repeat 0%N S)); [rewrite Er; reflexivity|].
      rewrite !firstn_app, !firstn_repeat. f_equal. f_equal. lia.
  Qed.

  (** [execute_serialized_command]. *)
  Theorem serialized_spec loc b w r w' :
    wf cf (w_st w) -> execute_serialized_command cf C P co po cg loc b w = (r, w') ->
    match deserialize_command cf b with
    | Ok cmd => exists r0, execute cf C P co po cg cmd loc w = (r0, w') /\
        match r0 with
        | Ok resp => r = Ok resp
        | Err e => r = Ok (RespError {| rh_magic := 0x44504552; rh_status := get_error_code e; rh_profile := prof cf |})
        | Crash k => r = Crash k
        end
    | Err e => r = Err e /\ w' = w
    | Crash k => r = Crash k /\ w' = w
    end.
  Proof.
    intros W H. unfold execute_serialized_command, bind, lift in H.
    destruct (deserialize_command cf b) as [cmd|e|k]; [|inversion H; auto|inversion H; auto].
    destruct (execute cf C P co po cg cmd loc w) as [[resp|e|k] w1]; inversion H; subst; eexists; (split; [reflexivity|]);
      reflexivity.
  Qed.
End Execute.
