(** ClientChain.v -- the client and the simulator: the profile, the certificate chain and
    sessions; proofs. *)
From Verif Require Import Base Errors Types StateOps Env Wire Instance Commands RespBuf Response X509 X509Cert RustCrypto DefaultPlatform Simulator GoClient ClientSpec
  Lib Spec Exec Effects Forest History WireSpec Contract Codec Steps Reach CommandSpecs Responses Execute X509Spec X509Cmd X509Sane
  PlatformProofs RustProofs SimulatorProofs Props_Simulator ClientProofs.
Local Open Scope N_scope.

(** The support word is the one the state was made with: 32 bits. *)
Lemma reachable_support cf s : config_ok cf -> reachable cf s -> u32 (st_support s).
Proof.
  intros Hcf [l H].
  induction H as [sup fl Hs|l s e r s' _ IH He H HA|sup fl e ty m r s' He Hs Hty Hm H|l s e cmd loc r s' Hh IH He Wc Wl HA H].
  - exact Hs.
  - destruct H as (c & p & out & c' & p' & out' & H).
    apply (dpe_new_changes cf e anywhere) in H; [|intros; apply any_allowed].
    apply changes_globals in H. cbn [w_st] in H. destruct H as (_ & _ & -> & _). exact IH.
  - destruct H as (c & p & out & c' & p' & out' & H).
    apply (dpe_new_auto_init_fresh cf e Hcf sup fl) in H; [|reflexivity]. cbn [w_st] in H.
    destruct H as [[-> _]|(a & q & _ & _ & H)]; [exact Hs|]. cbv zeta in H.
    destruct H as [[_ ->]|[_ (d & Hd & Hld & ->)]]; exact Hs.
  - apply (executes_changes cf e Hcf anywhere) in H; auto using any_allowed.
    + apply changes_globals in H. destruct H as (_ & _ & -> & _). exact IH.
    + eapply history_wf; eassumption.
Qed.

(** ** Any transport: no panic outside the certificate chain *)
Section Calm.
  Variable T : Type.
  Variable send : bytes -> T -> option bytes * T.
  Definition calm {A} (r : go_result A) : Prop := match r with GoOk _ | GoErr _ => True | GoPanic | GoFuel => False end.
  Lemma calm_exec code p cmd ls t : calm (fst (go_exec T send code p cmd ls t)).
  Proof.
    unfold go_exec. destruct (send _ t) as [[b|] t']; cbn [fst calm]; [|exact I].
    destruct (read_fields [4; 4; 4]%nat b) as [[[|m [|s [|q [|? ?]]]] r]|]; try exact I.
    destruct (negb _); [exact I|]. destruct (negb _); [exact I|]. destruct (read_fields ls r) as [[? ?]|]; exact I.
  Qed.
  Lemma calm_then {A B} (m : go_result A * T) (f : A -> go_result B) : calm (fst m) -> (forall a, calm (f a)) -> calm (fst (go_then T m f)).
  Proof. destruct m as [[a|e| |] t]; cbn; auto. Qed.
  Ltac fields := repeat match goal with
    | |- calm (match ?x with _ => _ end) => destruct x; try exact I
    | |- calm (GoOk _) => exact I
    | |- calm (GoErr _) => exact I
    end.
  Lemma calm_do c q t : calm (fst (go_do T send c q t)).
  Proof.
    assert (X : forall A code p cmd ls t (f : N * list bytes * bytes -> go_result A), (forall a, calm (f a)) -> calm (fst (go_then T (go_exec T send code p cmd ls t) f)))
      by (intros; apply calm_then; [apply calm_exec|assumption]).
    destruct q; cbn [go_do]; unfold go_get_profile, go_handle, go_derive_abi, go_certify_abi, go_sign_abi, go_sign_raw;
      repeat match goal with |- calm (fst (if ?b then _ else _)) => destruct b; try exact I end;
      try (destruct (cl_kind c)); try (apply X; intros a; fields).
  Qed.
  Lemma calm_new k t : calm (fst (go_new T send k t)).
  Proof.
    unfold go_new. apply calm_then.
    - unfold go_get_profile. apply calm_then; [apply calm_exec|]. intros a; fields.
    - intros a. fields.
  Qed.
End Calm.

(** ** The certificate chain, with any device *)
Lemma skipn_step (a b : nat) (l : bytes) : skipn b (skipn a l) = skipn (a + b) l.
Proof. revert l. induction a as [|a IH]; intros [|x l]; cbn [skipn Nat.add]; try apply skipn_nil; auto. Qed.

Section Pieces.
  Variable T : Type.
  Variable send : bytes -> T -> option bytes * T.
  Variable c : go_client.
  Variable chain : bytes.
  Variable st : N.
  Variable fine : T -> Prop.
  Hypothesis Hfit : chain_fits chain.
  Hypothesis Ust : u32 st.
  Hypothesis Nst : st <> 0.
  Hypothesis Hserve : serves_chain send c chain st fine.
  Notation len := (N.of_nat (length chain)).

  Definition fetched : go_result bytes :=
    if N.eqb (len mod 2048) 0
    then if N.eqb st 3 then if Nat.eqb (length chain) 0 then GoErr GoEmptyChain else GoOk chain else GoErr (GoStatus st)
    else GoOk chain.

  Lemma loop_spec n i t : fine t -> 2048 * N.of_nat i <= len -> len / 2048 < N.of_nat (n + i) ->
    exists t', fine t' /\
      go_chain_loop T send c n (2048 * N.of_nat i) (firstn (N.to_nat (2048 * N.of_nat i)) chain) t = (fetched, t').
  Proof.
    revert i t. induction n as [|n IH]; intros i t Ft Hi Hn.
    { exfalso. assert (N.of_nat i <= len / 2048) by (apply N.div_le_lower_bound; lia). lia. }
    assert (Uo : u32 (2048 * N.of_nat i)) by (unfold u32, chain_fits in *; lia).
    destruct (Hserve t (2048 * N.of_nat i) Ft Uo) as (p & t1 & Up & Ft1 & H).
    cbn [go_chain_loop]. unfold go_exec.
    change (le_bytes 4 1146111299 ++ le_bytes 4 (gc_chain (cl_codes c)) ++ le_bytes 4 (cl_profile c) ++ le_bytes 4 (2048 * N.of_nat i) ++ le_bytes 4 2048)
      with (chain_request c (2048 * N.of_nat i)).
    assert (DM : len = 2048 * (len / 2048) + len mod 2048) by (apply N.div_mod'; discriminate).
    assert (ML : len mod 2048 < 2048) by (apply N.mod_lt; discriminate).
    destruct (N.ltb_spec (2048 * N.of_nat i) len) as [L|L].
    - destruct H as (part & rest & Ep & Hp & Lp & pad & Lpad & ->). 
      rewrite (read_fields_at [4; 4; 4]%nat [[82; 69; 80; 68]; le_bytes 4 0; le_bytes 4 p] _ (le_bytes 4 (N.of_nat (length part)) ++ part ++ pad)) by reflexivity.
      cbn [N.eqb Pos.eqb negb]. change (le_val [82; 69; 80; 68]) with 1146111314. change (le_val (le_bytes 4 0)) with 0. cbn [N.eqb Pos.eqb negb].
      rewrite (read_fields_at [4; N.to_nat 2048]%nat [le_bytes 4 (N.of_nat (length part)); part ++ pad] _ []);
        [|cbn [concat]; rewrite !app_nil_r; reflexivity|cbn [map]; rewrite Lpad; reflexivity].
      rewrite le4 by (unfold u32; lia). rewrite (proj2 (N.ltb_ge _ _)) by lia. rewrite Nat2N.id, firstn_app, firstn_all, Nat.sub_diag.
      cbn [firstn]. rewrite app_nil_r.
      assert (EQ : length (skipn (N.to_nat (2048 * N.of_nat i)) chain) = (length part + length rest)%nat) by (rewrite Ep; apply app_length).
      rewrite skipn_length in EQ.
      destruct (N.ltb_spec (N.of_nat (length part)) 2048) as [Q|Q].
      + destruct Hp as [->|Hp]; [|lia]. rewrite app_nil_r in Ep. cbn [length] in EQ. exists t1. split; [exact Ft1|]. f_equal.
        rewrite <- Ep, firstn_skipn. unfold fetched.
        assert (M : len mod 2048 = N.of_nat (length part)).
        { symmetry. apply (N.mod_unique len 2048 (N.of_nat i)); [exact Q|]. lia. }
        rewrite M, (proj2 (N.eqb_neq _ _)) by lia. rewrite (proj2 (Nat.eqb_neq _ _)); [reflexivity|lia].
      + assert (E2 : firstn (N.to_nat (2048 * N.of_nat i)) chain ++ part = firstn (N.to_nat (2048 * N.of_nat (S i))) chain).
        { rewrite <- (firstn_skipn (N.to_nat (2048 * N.of_nat i)) chain) at 2. rewrite firstn_app, firstn_length, Ep.
          rewrite (Nat.min_l (N.to_nat (2048 * N.of_nat i))) by lia. rewrite firstn_firstn, Nat.min_r by lia. f_equal.
          replace (N.to_nat (2048 * N.of_nat (S i)) - N.to_nat (2048 * N.of_nat i))%nat with (length part) by lia.
          rewrite firstn_app, firstn_all, Nat.sub_diag. cbn [firstn]. symmetry. apply app_nil_r. }
        rewrite E2, N.mod_small by (unfold chain_fits in Hfit; lia).
        replace (2048 * N.of_nat i + 2048) with (2048 * N.of_nat (S i)) by lia.
        apply IH; [exact Ft1|lia|lia].
    - rewrite H. rewrite (read_fields_at [4; 4; 4]%nat [[82; 69; 80; 68]; le_bytes 4 st; le_bytes 4 p] _ []);
        [|cbn [concat]; rewrite !app_nil_r; reflexivity|reflexivity].
      change (le_val [82; 69; 80; 68]) with 1146111314. cbn [N.eqb Pos.eqb negb]. rewrite le4 by exact Ust.
      rewrite (proj2 (N.eqb_neq _ _) Nst). cbn [negb]. rewrite (firstn_all2 chain) by lia.
      exists t1. split; [exact Ft1|].
      assert (M : len mod 2048 = 0) by (symmetry; apply (N.mod_unique len 2048 (N.of_nat i)); lia).
      unfold fetched. rewrite M. cbn [N.eqb]. destruct (N.eqb_spec st 3) as [->|N3]; [reflexivity|].
      destruct st as [|q]; [contradiction|]. do 2 (destruct q as [q|q|]; try reflexivity; try congruence).
  Qed.

  Lemma chain_spec n t : fine t -> len / 2048 < N.of_nat n -> exists t', fine t' /\ go_chain T send c n t = (fetched, t').
  Proof.
    intros Ft Hn. destruct (loop_spec n 0 t Ft) as (t' & Ft' & E); [lia|rewrite Nat.add_0_r; exact Hn|].
    exists t'. split; [exact Ft'|]. exact E.
  Qed.
End Pieces.

(** ** The simulator *)
Section Live.
  Variable cf : config.
  Hypothesis Hcf : config_ok cf.
  Variable R : Type.
  Variable pr : primitives R.
  Variables chain issuer serial ski : bytes.
  Hypothesis Hchain : chain_fits chain.
  Hypothesis Hfuel : (length chain < 2048 * (fuel cf - 1))%nat.
  Hypothesis Hissuer : (length issuer <= 128)%nat.
  Notation send := (sim_send cf R pr chain issuer serial ski).
  Notation runs := (runs_to cf R pr chain issuer serial ski).
  Notation exec := (go_exec (option (world (rust_c R) unit))).

  Lemma same_world (w : world (rust_c R) unit) : mkWorld (w_st w) (w_c w) (w_p w) (w_out w) = w.
  Proof. destruct w; reflexivity. Qed.

  Lemma write_exact s (k : rust_c R) (p : unit) bs n : length bs = n ->
    write_out 0 bs (mkWorld s k p (repeat 0 n)) = (Ok tt, mkWorld s k p bs).
  Proof.
    intros <-. unfold write_out. cbn [w_out w_st w_c w_p]. rewrite Nat.add_0_l, repeat_length, Nat.leb_refl.
    rewrite skipn_all2 by (rewrite repeat_length; lia). cbn [firstn app]. rewrite app_nil_r. reflexivity.
  Qed.
  Lemma respond_exact s (k : rust_c R) (p : unit) bs n : length bs = n ->
    respond (rust_c R) unit bs (mkWorld s k p (repeat 0 n)) = (Ok (N.of_nat n), mkWorld s k p bs).
  Proof. intros H. unfold respond, bind. rewrite (write_exact s k p bs n H). cbn [ret]. rewrite H. reflexivity. Qed.

  Lemma profile_length s : length (get_profile_resp_bytes cf s 0 0) = N.to_nat 32.
  Proof. unfold get_profile_resp_bytes. rewrite !app_length, length_ok_hdr, !length_le_bytes. reflexivity. Qed.
  Lemma profile_run loc w : runs CmdGetProfile loc w (Ok 32) (get_profile_resp_bytes cf (st_support (w_st w)) 0 0) w.
  Proof.
    exists (mkWorld (w_st w) (w_c w) (w_p w) (get_profile_resp_bytes cf (st_support (w_st w)) 0 0)).
    split; [|split; [reflexivity|cbn [w_st w_c w_p w_out]; symmetry; apply same_world]].
    unfold sim_exec. cbn [exec_command wire_size].
    change (respond (rust_c R) unit (get_profile_resp_bytes cf (st_support (w_st w)) 0 0) (mkWorld (w_st w) (w_c w) (w_p w) (repeat 0 (N.to_nat 32)))
      = (Ok 32, mkWorld (w_st w) (w_c w) (w_p w) (get_profile_resp_bytes cf (st_support (w_st w)) 0 0))).
    rewrite respond_exact by apply profile_length. reflexivity.
  Qed.

  Lemma runs_fun cmd loc w r out w' r2 out2 w2 : runs cmd loc w r out w' -> runs cmd loc w r2 out2 w2 -> r = r2 /\ out = out2 /\ w' = w2.
  Proof. intros (a & A & -> & ->) (b & B & -> & ->). rewrite A in B. injection B as <- <-. auto. Qed.

  Lemma hdr_eq : ok_hdr_bytes cf = concat (hdr_fields {| rh_magic := 0x44504552; rh_status := 0; rh_profile := prof cf |}).
  Proof. unfold ok_hdr_bytes, response_hdr_bytes, hdr_fields. cbn [concat rh_magic rh_status rh_profile]. rewrite app_nil_r. reflexivity. Qed.

  Lemma profile_told loc w : reachable cf (w_st w) -> u32 loc ->
    go_get_profile _ (send loc) (Some w) =
    (GoOk (VProfile (own_profile cf) 0 13 0 0 (N.of_nat (max_handles cf)) (st_support (w_st w))), Some w).
  Proof.
    intros Hr Ul.
    assert (UH : u32 (N.of_nat (max_handles cf))) by (destruct Hcf as (? & _); unfold u32; lia).
    destruct (exec_live cf Hcf R pr chain issuer serial ski Hchain Hfuel Hissuer 1 0 CmdGetProfile [] [2; 2; 4; 4; 4; 4]%nat loc w Hr Ul I I)
      as (r & out & w' & Hrun & X); try reflexivity; [left; reflexivity|cbn; lia|].
    destruct (runs_fun _ _ _ _ _ _ _ _ _ Hrun (profile_run loc w)) as (-> & -> & ->).
    destruct X as (resp & _ & _ & _ & sent & _ & Es & X). unfold go_get_profile. rewrite X. clear X. cbn [go_then].
    rewrite firstn_all2 in Es by (rewrite profile_length; lia).
    rewrite (hdr_read cf sent (concat [le_bytes 2 0; le_bytes 2 13; le_bytes 4 0; le_bytes 4 0; le_bytes 4 (N.of_nat (max_handles cf)); le_bytes 4 (st_support (w_st w))])).
    - rewrite (read_fields_at [2; 2; 4; 4; 4; 4]%nat [le_bytes 2 0; le_bytes 2 13; le_bytes 4 0; le_bytes 4 0; le_bytes 4 (N.of_nat (max_handles cf)); le_bytes 4 (st_support (w_st w))] _ []);
        [|symmetry; apply app_nil_r|reflexivity].
      rewrite !le4, !le2 by first [exact UH|apply (reachable_support cf); assumption|reflexivity]. reflexivity.
    - rewrite Es. unfold get_profile_resp_bytes. rewrite hdr_eq. cbn [concat]. rewrite app_nil_r. reflexivity.
  Qed.

  Lemma new_told k loc w : reachable cf (w_st w) -> u32 loc ->
    go_new _ (send loc) k (Some w) =
    (if N.eqb (kind_profile k) (own_profile cf)
     then GoOk {| cl_kind := k; cl_codes := codes_v09; cl_profile := own_profile cf; cl_major := 0; cl_minor := 13;
                  cl_vendor_id := 0; cl_vendor_sku := 0; cl_max_tci := 0; cl_flags := st_support (w_st w) |}
     else GoErr GoProfile, Some w).
  Proof.
    intros Hr Ul. unfold go_new. rewrite profile_told by assumption. cbn [go_then].
    change (target_profile k) with (kind_profile k). rewrite (N.eqb_sym (kind_profile k)).
    destruct (N.eqb (own_profile cf) (kind_profile k)); reflexivity.
  Qed.

  (** *** Sessions *)
  Lemma runs_reachable cmd loc w r out w' : reachable cf (w_st w) -> command_wf cf cmd -> u32 loc -> runs cmd loc w r out w' -> reachable cf (w_st w').
  Proof.
    intros [lg Hr] Wc Wl (w1 & X & _ & ->). cbn [w_st]. exists (EvCommand cmd loc r :: lg).
    eapply (hi_command cf _ _ lg (w_st w) {| e_C := rust_c R; e_P := unit; e_crypto := sim_ops cf R pr; e_platform := sim_platform chain issuer serial ski;
                e_cert := x509_gen cf (rust_c R) unit (sim_ops cf R pr) (sim_platform chain issuer serial ski) |}); try exact I; try assumption.
    destruct w1 as [s1 c1 p1 o1]. do 6 eexists. exact X.
  Qed.

  (** *** The chain *)
  Lemma within_run off loc w : all_bytes chain -> off < N.of_nat (length chain) ->
    exists pad, length (piece chain off 2048 ++ pad) = N.to_nat 2048 /\
      runs (CmdGetCertificateChain off 2048) loc w (Ok 2064)
        (ok_hdr_bytes cf ++ le_bytes 4 (N.of_nat (length (piece chain off 2048))) ++ piece chain off 2048 ++ pad) w.
  Proof.
    intros HB L. set (k := length (piece chain off 2048)).
    assert (K : (k <= N.to_nat 2048)%nat) by (apply (piece_small chain off 2048); lia).
    set (z := repeat 0 (N.to_nat 2048)). assert (Lz : length z = N.to_nat 2048) by apply repeat_length.
    assert (LP : length (piece chain off 2048 ++ skipn k z) = N.to_nat 2048) by (rewrite app_length, skipn_length, Lz; fold k; lia).
    exists (skipn k z). split; [exact LP|].
    exists (mkWorld (w_st w) (w_c w) (w_p w) (ok_hdr_bytes cf ++ le_bytes 4 (N.of_nat k) ++ piece chain off 2048 ++ skipn k z)).
    split; [|split; [reflexivity|cbn [w_st w_c w_p w_out]; symmetry; apply same_world]].
    unfold sim_exec. cbn [exec_command wire_size]. unfold exec_get_chain. change max_chunk_size with 2048. cbn [N.ltb N.compare Pos.compare Pos.compare_cont].
    unfold bind, cert_chain_call. change max_chunk_size with 2048. fold z.
    rewrite platform_chain_more by first [exact Hchain|exact L|exact Lz|lia]. fold k.
    rewrite (to_buf_id (N.to_nat 2048)); [|exact LP|].
    - cbn [w_st w_c w_p w_out]. rewrite N.mod_small by lia. rewrite (respond_exact _ _ _ _ (N.to_nat 2064)); [reflexivity|].
      unfold cert_chain_resp_bytes. rewrite !app_length, length_ok_hdr, length_le_bytes. rewrite <- app_length, LP. lia.
    - apply all_bytes_app. split.
      + unfold piece. apply all_bytes_firstn. rewrite <- (firstn_skipn (N.to_nat off) chain) in HB. apply all_bytes_app in HB. apply HB.
      + assert (B : all_bytes z) by apply all_bytes_zero. rewrite <- (firstn_skipn k z) in B. apply all_bytes_app in B. apply B.
  Qed.
  Lemma past_run off loc w : N.of_nat (length chain) <= off ->
    runs (CmdGetCertificateChain off 2048) loc w (Err (PlatformErr PECertificateChain)) (repeat 0 (N.to_nat 2064)) w.
  Proof.
    intros L. eexists. split; [unfold sim_exec, sim_platform; rewrite request_past by (assumption || lia); reflexivity|].
    split; [reflexivity|]. cbn [w_st w_c w_p]. symmetry. apply same_world.
  Qed.

  (** What the simulator sends back for a request. *)
  Lemma sim_sends cmd p loc w :
    reachable cf (w_st w) -> u32 loc -> command_wf cf cmd -> WireSpec.for_profile cf cmd -> u32 p ->
    (cmd = CmdGetProfile \/ p = own_profile cf) -> N.of_nat (length (concat (command_fields cmd))) <= 4000 ->
    exists r out w', runs cmd loc w r out w' /\ (forall k, r <> Crash k) /\
      send loc (le_bytes 4 0x44504543 ++ le_bytes 4 (request_id cmd) ++ le_bytes 4 p ++ concat (command_fields cmd)) (Some w) =
      (Some (answer_bytes cf r out), Some w').
  Proof.
    intros Hr Ul Wc Wp Up Hp Lb.
    set (msg := le_bytes 4 0x44504543 ++ le_bytes 4 (request_id cmd) ++ le_bytes 4 p ++ concat (command_fields cmd)).
    assert (Bm : all_bytes (le_bytes 4 loc ++ msg)).
    { unfold msg. rewrite !all_bytes_app. repeat split; try apply all_bytes_le_bytes. eapply fields_bytes; eauto. }
    set (cn := {| cn_read := Some (le_bytes 4 loc ++ msg); cn_open := true |}).
    assert (Bg : brings cf cn loc cmd).
    { exists (le_bytes 4 loc ++ msg), msg. split; [reflexivity|]. split; [exact Bm|]. split.
      - apply firstn_all2. unfold msg. rewrite !app_length, !length_le_bytes. lia.
      - split; [exact Ul|]. split; [exact Wc|]. split; [exact Wp|]. exists p, []. split; [|auto].
        rewrite app_nil_r. reflexivity. }
    destruct (handle_request cf R pr chain issuer serial ski cn w) as [a w'] eqn:E.
    destruct (handle_spec cf Hcf R pr chain issuer serial ski Hchain Hfuel cn w a w' Hr ltac:(intros m Q; injection Q as <-; exact Bm) E) as [H1 _].
    destruct (H1 _ _ Bg) as (r0 & w1 & X & NC & Ew & Ea). cbn [cn_open cn] in Ea. subst a.
    exists r0, (w_out w1), w'. split; [exists w1; auto|]. split; [exact NC|].
    cbn [sim_send]. fold cn. rewrite E. reflexivity.
  Qed.

  Lemma sim_serves c loc w : all_bytes chain -> reachable cf (w_st w) -> u32 loc -> cl_codes c = codes_v09 -> cl_profile c = own_profile cf ->
    serves_chain (send loc) c chain (get_error_code (PlatformErr PECertificateChain)) (fun t => t = Some w).
  Proof.
    intros HB Hr Ul Ec Ep t off -> Uo. exists (own_profile cf), (Some w). split; [apply own_u32|]. split; [reflexivity|].
    destruct (sim_sends (CmdGetCertificateChain off 2048) (own_profile cf) loc w Hr Ul) as (r & out & w' & Hrun & _ & E);
      [split; [exact Uo|reflexivity]|exact I|apply own_u32|right; reflexivity|cbn; lia|].
    assert (EQ : chain_request c off = le_bytes 4 0x44504543 ++ le_bytes 4 (request_id (CmdGetCertificateChain off 2048)) ++ le_bytes 4 (own_profile cf) ++ concat (command_fields (CmdGetCertificateChain off 2048))).
    { unfold chain_request. rewrite Ec, Ep. cbn [command_fields concat request_id codes_v09 gc_chain]. rewrite app_nil_r. reflexivity. }
    rewrite EQ, E. clear EQ E. destruct (N.ltb_spec off (N.of_nat (length chain))) as [L|L].
    - destruct (within_run off loc w HB L) as (pad & Lp & Hw).
      destruct (runs_fun _ _ _ _ _ _ _ _ _ Hrun Hw) as (-> & -> & ->).
      exists (piece chain off 2048), (skipn (N.to_nat 2048) (skipn (N.to_nat off) chain)).
      split; [unfold piece; symmetry; apply firstn_skipn|]. split; [|split].
      + rewrite skipn_step. destruct (Nat.le_gt_cases (length chain) (N.to_nat off + N.to_nat 2048)) as [Q|Q].
        * left. apply skipn_all2. exact Q.
        * right. rewrite piece_length by exact L. lia.
      + rewrite app_length in Lp. lia.
      + exists pad. split; [exact Lp|]. cbn [answer_bytes]. do 2 f_equal.
        rewrite firstn_all2.
        * rewrite hdr_eq. unfold hdr_fields. cbn [concat rh_magic rh_status rh_profile]. rewrite app_nil_r, <- own_profile_eq, <- !app_assoc. reflexivity.
        * rewrite !app_length, length_ok_hdr, length_le_bytes. rewrite app_length in Lp. lia.
    - destruct (runs_fun _ _ _ _ _ _ _ _ _ Hrun (past_run off loc w L)) as (-> & _ & ->). reflexivity.
  Qed.
End Live.

(** A request to sign a digest that says it is a raw message is no request. *)
Section Raw.
  Variable cf : config.
  Hypothesis Hm : prof cf = Mldsa87.
  Lemma raw_flag h label flags tbs cmd : byte_string 16 h -> length label = 48%nat -> u32 flags -> length tbs = 64%nat -> N.testbit flags 0 = true ->
    ~ request_of cf cmd (le_bytes 4 0x44504543 ++ le_bytes 4 10 ++ le_bytes 4 (own_profile cf) ++ h ++ label ++ le_bytes 4 flags ++ tbs).
  Proof.
    intros [Lh _] Ll Uf Lt B (Wc & Wp & p & rest & E & Up & Hp). unfold request in E. rewrite <- !app_assoc in E.
    apply app_inj_length in E as [_ E]; [|reflexivity].
    apply app_inj_length in E as [Ei E]; [|rewrite !length_le_bytes; reflexivity].
    assert (Ui : request_id cmd < 256 ^ 4) by (destruct cmd; reflexivity).
    apply (le_bytes_inj 4) in Ei; [|reflexivity|exact Ui].
    apply app_inj_length in E as [_ E]; [|rewrite !length_le_bytes; reflexivity].
    destruct cmd as [|f|d|c|c|hh f|hh|off size|u]; try discriminate Ei.
    destruct c as [c|c|c|c]; cbn [WireSpec.for_profile] in Wp; rewrite ?Hm in Wp; try discriminate Wp.
    - destruct Wp as [_ Wp]. cbn [command_wf] in Wc. unfold sign_wf in Wc. destruct Wc as ([Wh _] & [Wl _] & Wf & _).
      cbn [command_fields concat] in E. rewrite <- !app_assoc in E.
      apply app_inj_length in E as [_ E]; [|congruence]. apply app_inj_length in E as [_ E]; [|congruence].
      apply app_inj_length in E as [E _]; [|rewrite !length_le_bytes; reflexivity].
      apply (le_bytes_inj 4) in E; [|exact Uf|exact Wf]. congruence.
    - cbn [command_wf] in Wc. apply (f_equal (@length N)) in E. cbn [command_fields concat] in E.
      rewrite !app_length, !length_le_bytes in E. 
      assert (length (sr_raw c) = N.to_nat 1024) by (unfold byte_string in Wc; apply Wc). lia.
  Qed.
End Raw.
