(** SuiteDeriveLive.v -- a DeriveContext of a client of the simulator: what it may answer and
    what it leaves: proofs. *)
From Verif Require Import Base Errors Types StateOps Env Wire Instance Commands RespBuf Response X509 X509Cert RustCrypto DefaultPlatform Simulator GoClient Suite ClientSpec
  Lib Spec Exec Effects Forest History WireSpec Contract Codec Steps Reach CommandSpecs Responses Execute Walk Measure Reasons Explain Avail X509Spec X509Cmd X509Facts
  X509Fit X509Fail X509Sane PlatformProofs RustProofs Trace TraceCmds TraceRust RefFaults Props_Commands Props_Avail Props_Reference Props_Size Props_Fail Props_Calls
  Props_Handles Props_Tree Props_Harness SimulatorProofs Props_Simulator ClientProofs ClientChain Props_Client SuiteProofs SuiteCases Denials SuiteDerive.
Local Open Scope N_scope.

Lemma df28 f : df_make_default f = N.testbit f 28. Proof. apply contains_bit. Qed.
Lemma df29 f : df_retain_parent f = N.testbit f 29. Proof. apply contains_bit. Qed.
Lemma df27 f : df_change_locality f = N.testbit f 27. Proof. apply contains_bit. Qed.
Lemma df26 f : df_allow_export f = N.testbit f 26. Proof. apply contains_bit. Qed.
Lemma df25 f : df_allow_x509 f = N.testbit f 25. Proof. apply contains_bit. Qed.
Lemma df24 f : df_recursive f = N.testbit f 24. Proof. apply contains_bit. Qed.
Lemma df23 f : df_export_cdi f = N.testbit f 23. Proof. apply contains_bit. Qed.
Lemma df22 f : df_create_cert f = N.testbit f 22. Proof. apply contains_bit. Qed.
Lemma df21 f : df_allow_recursive f = N.testbit f 21. Proof. apply contains_bit. Qed.
Lemma df31 f : df_internal_info f = N.testbit f 31. Proof. apply contains_bit. Qed.
Lemma df30 f : df_internal_dice f = N.testbit f 30. Proof. apply contains_bit. Qed.
Ltac flags := rewrite ?df31, ?df30, ?df29, ?df28, ?df27, ?df26, ?df25, ?df24, ?df23, ?df22, ?df21 in *.

Definition target_of (f l tl : N) : N := if N.testbit f 27 then tl else l.
(** The new context, and its parent afterwards. *)
Definition born (pc : context) (p : nat) (f ty l tl : N) (d dg ch : bytes) : context :=
  {| c_handle := ch; c_tci := mkTci ty dg d (target_of f l tl) 0; c_children := 0; c_locality := target_of f l tl; c_parent := p;
     c_type := c_type pc; c_state := Active; c_info := N.testbit f 31; c_dice := N.testbit f 30; c_x509 := N.testbit f 25;
     c_export := N.testbit f 26 && c_export pc; c_recursive := N.testbit f 21 && c_recursive pc |}.
Definition parent_after (pc : context) (k : nat) (f : N) (ph : bytes) : context :=
  {| c_handle := ph; c_tci := c_tci pc; c_children := N.lor (c_children pc) (N.shiftl 1 (N.of_nat k)); c_locality := c_locality pc; c_parent := c_parent pc;
     c_type := c_type pc; c_state := if N.testbit f 29 then Active else Retired; c_info := c_info pc; c_dice := c_dice pc; c_x509 := c_x509 pc;
     c_export := c_export pc; c_recursive := c_recursive pc |}.
Definition derive_req (h d : bytes) (f ty tl : N) : derive_cmd :=
  {| dc_handle := h; dc_data := d; dc_flags := f; dc_tci_type := ty; dc_target_locality := tl; dc_svn := 0 |}.

Section Live.
  Variable cf : config.
  Variable R : Type.
  Variable pr : primitives R.
  Variables chain issuer serial ski : bytes.
  Notation dig := (backend_digest (prof cf)).
  Hypothesis RF : reference cf pr dig chain issuer serial ski.
  Notation ops := (sim_ops cf R pr).
  Notation plat := (sim_platform chain issuer serial ski).
  Notation send := (sim_send cf R pr chain issuer serial ski).
  Notation runs := (runs_to cf R pr chain issuer serial ski).
  Notation device := (option (world (rust_c R) unit)).
  Variable sup : go_support.
  Variable c : go_client.
  Hypothesis MF : made_for cf c.
  Notation call := (Suite.call device send c).
  Notation k := (cl_kind c).
  Let Hcf : config_ok cf := rf_config _ _ _ _ _ _ _ RF.
  Let Hchain : chain_fits chain := proj1 (rf_artifacts _ _ _ _ _ _ _ RF).
  Let Hfuel : (length chain < 2048 * (fuel cf - 1))%nat := rf_fuel _ _ _ _ _ _ _ RF.
  Let Hissuer := Hissuer cf R pr chain issuer serial ski RF.

  Lemma handles_out hd x y h h2 : length h = 16%nat -> length h2 = 16%nat -> length x = 16%nat ->
    concat (hdr_fields hd ++ [x; y]) = overwrite (repeat 0 (N.to_nat 44)) 0 (two_handle_resp_bytes cf h h2) -> x = h /\ y = h2.
  Proof.
    intros L L' Lx E. unfold overwrite, two_handle_resp_bytes in E. cbn [firstn app Nat.add] in E.
    assert (L2 : length (ok_hdr_bytes cf) = 12%nat) by (unfold ok_hdr_bytes, response_hdr_bytes; rewrite !app_length, !length_le_bytes; reflexivity).
    rewrite skipn_all2 in E by (rewrite repeat_length, !app_length, L, L', L2; cbn; lia). rewrite app_nil_r in E.
    rewrite concat_app in E. cbn [concat] in E. rewrite app_nil_r in E.
    assert (L1 : length (concat (hdr_fields hd)) = 12%nat) by (unfold hdr_fields; cbn [concat]; rewrite !app_length, !length_le_bytes; reflexivity).
    assert (E1 : x ++ y = h ++ h2).
    { apply (f_equal (skipn 12)) in E. rewrite !skipn_app, L1, L2 in E. rewrite (skipn_all2 (n := 12) (concat (hdr_fields hd))) in E by lia.
      rewrite (skipn_all2 (n := 12) (ok_hdr_bytes cf)) in E by lia. exact E. }
    apply app_inj_length in E1; [exact E1|congruence].
  Qed.

  (** Why it was refused: what is not the device's fault, and eight unusable handles. *)
  Definition derive_refused (h d : bytes) (f ty tl l : N) (w w' : world (rust_c R) unit) (e : dpe_error) : Prop :=
    let s := w_st w in
    (e = ArgumentNotSupported /\ unsupported_option s f) \/
    not_yours s h l e \/
    (e = InternalError HandleGenerationExhausted /\ eight_draws cf pr dig w w') \/
    exists j x, first_slot (names s h l) j /\ at_slot s j x /\
      ((e = InvalidArgument /\ bad_request s (derive_req h d f ty tl) j x) \/
       (N.testbit f 24 = true /\ ((e = InvalidArgument /\ tci_type (c_tci x) <> ty) \/ (e = InvalidLocality /\ target_of f l tl <> l))) \/
       (N.testbit f 24 = false /\ ((e = MaxTcis /\ Reasons.full s) \/ (e = InvalidArgument /\ unsafe_child (derive_req h d f ty tl) (target_of f l tl) s j)))).

  Definition derive_child_made (h d : bytes) (f ty tl l : N) (s s' : state) (ch ph : bytes) : Prop :=
    exists p pc q dg, first_slot (names s h l) p /\ at_slot s p pc /\ first_slot (inactive_at s) q /\ q <> p /\
      s' = put_ctx (put_ctx s q (born pc p f ty l tl d dg ch)) p (parent_after pc q f ph) /\
      ~ unsupported_option s f /\ ~ bad_request s (derive_req h d f ty tl) p pc /\ ~ unsafe_child (derive_req h d f ty tl) (target_of f l tl) s p /\
      (if N.testbit f 28 then ch = repeat 0 16 else gen_ok s ch) /\
      (if N.testbit f 29 then (h = repeat 0 16 /\ ph = repeat 0 16) \/ (h <> repeat 0 16 /\ gen_ok s ph) else ph = repeat 255 16).

  Definition derive_self_made (h d : bytes) (f ty tl l : N) (s s' : state) (ch : bytes) : Prop :=
    exists p pc tc, first_slot (names s h l) p /\ at_slot s p pc /\
      s' = put_ctx s p (set_handle ch (set_tci tc pc)) /\ tci_type tc = ty /\
      ~ unsupported_option s f /\ ~ bad_request s (derive_req h d f ty tl) p pc /\
      ((h = repeat 0 16 /\ ch = repeat 0 16) \/ (h <> repeat 0 16 /\ gen_ok s ch)).

  Lemma guard_fine d l s p pc : derive_guard d l s p pc ->
    (N.testbit (dc_flags d) 24 = false -> forall i x, at_slot s i x -> child_of s p i -> tci_type (c_tci x) <> dc_tci_type d) ->
    ~ unsupported_option s (dc_flags d) /\ ~ bad_request s d p pc.
  Proof.
    intros (_ & _ & U & G1 & G2 & G3) SF. split; [exact U|]. intros [(A & B)|[(A & B)|[(A & B)|(A & i & x & B1 & B2 & B3)]]].
    - specialize (G1 A). congruence.
    - destruct (G2 A) as (X1 & X2 & X3 & X4). destruct B as [B|[B|[B|B]]]; congruence.
    - destruct (G3 A) as (X1 & X2 & X3 & X4). destruct B as [B|[B|[B|B]]]; congruence.
    - exact (SF A i x B1 B2 B3).
  Qed.

  Lemma safe_fine s f p t d : dc_flags d = f -> safe_to_make_child s f p t = true -> ~ unsafe_child d t s p.
  Proof.
    intros Ef S U. unfold unsafe_child in U. rewrite Ef in U. destruct (N.testbit f 28) eqn:E.
    - destruct U as (i & x & A1 & A2 & A3 & A4). destruct (safe_default_spec (fun _ _ => True) s f p t (eq_trans (df28 f) E) S i x A1 A2 A3) as (B1 & B2 & B3).
      destruct A4 as [A4|[A4|A4]]; [exact (A4 B1)|exact (A4 B3)|rewrite df29 in B2; congruence].
    - destruct U as (i & A1 & A4). destruct (safe_non_default_spec s f p t (eq_trans (df28 f) E) S i A1) as (B1 & B2).
      destruct A4 as [A4|A4]; [exact (A4 B1)|rewrite df29 in B2; congruence].
  Qed.

  Lemma zeros16 : byte_string 16 default_handle. Proof. apply (zeros_byte_string 16). Qed.
  Lemma ones16 : byte_string 16 invalid_handle.
  Proof. split; [reflexivity|]. apply Forall_forall. intros x Hx. apply repeat_spec in Hx. subst; reflexivity. Qed.
  Lemma gen_bytes s h : gen_ok s h -> byte_string 16 h.
  Proof. intros (_ & L & A & _). split; assumption. Qed.

  Lemma args_fine pc f : derive_bad_args pc f = false ->
    (N.testbit f 25 = true -> c_x509 pc = false -> False) /\
    (N.testbit f 24 = true -> (c_recursive pc = false \/ N.testbit f 29 = true \/ N.testbit f 21 = true \/ N.testbit f 23 = true) -> False) /\
    (N.testbit f 23 = true -> (N.testbit f 22 = false \/ N.testbit f 27 = true \/ c_type pc = Simulation \/ c_export pc = false) -> False).
  Proof.
    unfold derive_bad_args. rewrite df29, df27, df25, df24, df23, df22, df21. intros B.
    repeat match goal with H : (_ || _)%bool = false |- _ => apply orb_false_iff in H as [? ?] end.
    split; [|split].
    - intros X Y. rewrite X, Y in *. discriminate.
    - intros X Y. rewrite X in *. destruct Y as [Y|[Y|[Y|Y]]]; rewrite Y in *; discriminate.
    - intros X Y. rewrite X in *. destruct Y as [Y|[Y|[Y|Y]]]; rewrite Y in *; discriminate.
  Qed.

  Lemma child_done_made h d f ty tl l s s' bs : wf cf s -> derive_child_done cf (rust_c R) unit ops (derive_req h d f ty tl) l s s' bs ->
    exists ch ph, derive_child_made h d f ty tl l s s' ch ph /\ byte_string 16 ch /\ byte_string 16 ph /\ bs = two_handle_resp_bytes cf ch ph.
  Proof.
    intros W (p & pc & pc' & q & ch & dg & (U & F & A & B) & R0 & _ & SF & TP & Q & _ & SC & HH & _ & _ & _ & -> & ->).
    set (dq := derive_req h d f ty tl) in *. cbn [dq derive_req dc_handle] in F.
    pose proof F as [(pd & D1 & D2 & D3 & D4) _]. assert (pd = pc) by (unfold at_slot in *; congruence). subst pd.
    assert (Nq : q <> p). { intros ->. destruct Q as [(z & Z1 & Z2) _]. unfold at_slot in *. congruence. }
    exists ch, (c_handle pc').
    assert (Bch : byte_string 16 ch) by (destruct HH as [(_ & ->)|(_ & G)]; [exact zeros16|exact (gen_bytes _ _ G)]).
    assert (TP' : set_children (N.lor (c_children pc) (N.shiftl 1 (N.of_nat q))) pc' = parent_after pc q f (c_handle pc') /\
      (if N.testbit f 29 then (h = repeat 0 16 /\ c_handle pc' = repeat 0 16) \/ (h <> repeat 0 16 /\ gen_ok s (c_handle pc')) else c_handle pc' = repeat 255 16)).
    { unfold tmp_parent in TP. rewrite df29 in TP; change (dc_flags dq) with f in *.
      unfold parent_after. destruct TP as [(-> & [(T1 & ->)|(T1 & hh & T2 & ->)])|(-> & ->)]; cbn [set_handle set_state set_children c_handle]; (split; [destruct pc; cbn in *; subst; reflexivity|]);
        [left|right|reflexivity]; (split; [change default_handle with (repeat 0 16) in *; congruence|first [exact T2|change default_handle with (repeat 0 16) in *; congruence]]). }
    destruct TP' as [T1 T2].
    assert (Bph : byte_string 16 (c_handle pc')).
    { destruct (N.testbit f 29); [destruct T2 as [(_ & ->)|(_ & G)]; [exact zeros16|exact (gen_bytes _ _ G)]|rewrite T2; exact ones16]. }
    split; [|split; [exact Bch|split; [exact Bph|reflexivity]]].
    exists p, pc, q, dg. split; [exact F|]. split; [exact A|]. split; [exact Q|]. split; [exact Nq|]. split; [rewrite T1; unfold child_context, derive_target, born, target_of; rewrite df31, df30, df27, df26, df25, df21; reflexivity|].
    assert (GF : ~ unsupported_option s f /\ ~ bad_request s dq p pc).
    { change f with (dc_flags dq) at 1. split.
      - intros UO. apply (unsupported_iff s (dc_flags dq)) in UO. congruence.
      - intros BR. destruct (args_fine pc f B) as (B1 & B2 & B3). rewrite df24 in R0. change (dc_flags dq) with f in R0.
        destruct BR as [(X & Y)|[(X & Y)|[(X & Y)|(_ & j & x & Y1 & Y2 & Y3)]]]; [exact (B1 X Y)|exact (B2 X Y)|exact (B3 X Y)|].
        + destruct Y2 as (y & Z1 & Z2 & Z3). assert (y = x) by (unfold at_slot in *; congruence). subst y.
          exact (sibling_free_spec cf Hcf s p pc (dc_tci_type dq) (wf_forest _ _ W) A SF j x Y1 Z2 Z3 Y3). }
    split; [apply GF|]. split; [apply GF|]. split; [eapply safe_fine; [reflexivity|]; unfold derive_target in SC; rewrite df27 in SC; exact SC|].
    split; [rewrite df28 in HH; change (dc_flags dq) with f in *; destruct HH as [(-> & ->)|(-> & G)]; [reflexivity|exact G]|].
    exact T2.
  Qed.

  Lemma self_done_made h d f ty tl l s s' bs : derive_recursive_done cf (rust_c R) unit ops (derive_req h d f ty tl) l s s' bs ->
    exists ch, derive_self_made h d f ty tl l s s' ch /\ byte_string 16 ch /\ bs = two_handle_resp_bytes cf ch (repeat 0 16).
  Proof.
    intros (p & pc & pc' & dg & (U & F & A & B) & R1 & TT & _ & _ & _ & RL & -> & ->). set (dq := derive_req h d f ty tl) in *. cbn [dq derive_req dc_handle] in F.
    pose proof F as [(pd & D1 & D2 & D3 & D4) _]. assert (pd = pc) by (unfold at_slot in *; congruence). subst pd.
    set (tc := extend (c_tci pc) dg (dc_data dq)) in *.
    exists (c_handle pc').
    assert (RH : pc' = set_handle (c_handle pc') (set_tci tc pc) /\ ((h = repeat 0 16 /\ c_handle pc' = repeat 0 16) \/ (h <> repeat 0 16 /\ gen_ok s (c_handle pc')))).
    { destruct RL as [(T1 & ->)|(T1 & hh & T2 & ->)]; cbn [set_handle c_handle set_tci] in *; (split; [destruct pc; cbn in *; subst; reflexivity|]); [left|right]; (split; [change default_handle with (repeat 0 16) in *; congruence|first [exact T2|change default_handle with (repeat 0 16) in *; congruence]]). }
    destruct RH as [RH1 RH2].
    split; [|split; [|reflexivity]].
    - exists p, pc, tc. split; [exact F|]. split; [exact A|]. split; [rewrite <- RH1; reflexivity|]. split; [exact TT|]. split; [|split; [|exact RH2]].
      + change f with (dc_flags dq). intros UO. apply (unsupported_iff s (dc_flags dq)) in UO. congruence.
      + intros BR. destruct (args_fine pc f B) as (B1 & B2 & B3). rewrite df24 in R1. change (dc_flags dq) with f in R1.
        destruct BR as [(X & Y)|[(X & Y)|[(X & Y)|(X & _)]]]; [exact (B1 X Y)|exact (B2 X Y)|exact (B3 X Y)|]. cbn [derive_req dc_flags] in X. congruence.
    - destruct RH2 as [(_ & ->)|(_ & G)]; [exact zeros16|exact (gen_bytes _ _ G)].
  Qed.

  Lemma derive_live h d f ty tl w l i : reachable cf (w_st w) -> u32 l -> byte_string 16 h -> byte_string (label_size k) d -> u32 f -> u32 ty -> u32 tl ->
    N.testbit f 23 = false ->
    exists v w', call (GcDerive h d f ty tl) (at_ w l i) = (Some v, [], at_ w' l i) /\ reachable cf (w_st w') /\
      ((exists e, v = GoErr (GoStatus (get_error_code e)) /\ w_st w' = w_st w /\ derive_refused h d f ty tl l w w' e) \/
       (exists ch ph, v = GoOk (VDerived ch ph (repeat 0 32) 0 []) /\ byte_string 16 ch /\ byte_string 16 ph /\
          if N.testbit f 24 then derive_self_made h d f ty tl l (w_st w) (w_st w') ch
          else derive_child_made h d f ty tl l (w_st w) (w_st w') ch ph)).
  Proof.
    intros Hr Ul Uh Ud Uf Ut Utl B23.
    destruct (call_live cf R pr chain issuer serial ski RF c MF (GcDerive h d f ty tl) w l i Hr Ul) as (r & out & w' & v & Hrun & D & E & Hr' & WC & WP).
    { cbn [usable]. auto. }
    exists v, w'. split; [exact E|]. split; [exact Hr'|]. cbn [meant] in *. fold (derive_req h d f ty tl) in *. set (dq := derive_req h d f ty tl) in *.
    pose proof (reachable_wf cf Hcf _ Hr) as W. pose proof (reachable_wf cf Hcf _ Hr') as W'.
    pose proof Hrun as (w1 & X & Eo & Ew).
    assert (CE : (df_create_cert (dc_flags dq) && df_export_cdi (dc_flags dq))%bool = false).
    { rewrite df23. change (dc_flags dq) with f. rewrite B23. apply andb_false_r. }
    assert (Ws : N.to_nat (wire_size cf (CmdDeriveContext dq)) = N.to_nat 44).
    { cbn [wire_size dq derive_req dc_flags]. rewrite ?B23. reflexivity. }
    pose proof X as X2. unfold sim_exec in X2. cbn [exec_command] in X2. apply exec_derive_inv in X2.
    assert (Hs0 : w_st (mkWorld (w_st w) (w_c w) (w_p w) (repeat 0 (N.to_nat (wire_size cf (CmdDeriveContext dq))))) = w_st w) by reflexivity.
    cbn [w_st] in X2. rewrite Ws in X2.
    assert (NoE : forall s' w2 cr ph, ~ derive_export_done cf (rust_c R) unit plat (x509_gen cf (rust_c R) unit ops plat) dq l
        (mkWorld (w_st w) (w_c w) (w_p w) (repeat 0 (N.to_nat 44))) s' w2 cr ph).
    { intros s' w2 cr ph (a & b & b' & u & ue & z & _ & _ & H1 & H2 & _). rewrite H1, H2 in CE. discriminate. }
    destruct r as [n|e|kk]; [| |destruct D].
    - right. destruct D as (resp & AN & EB & ->).
      assert (FF : exists ch ph, byte_string 16 ch /\ byte_string 16 ph /\ w_out w1 = overwrite (repeat 0 (N.to_nat 44)) 0 (two_handle_resp_bytes cf ch ph) /\
        (if N.testbit f 24 then derive_self_made h d f ty tl l (w_st w) (w_st w1) ch else derive_child_made h d f ty tl l (w_st w) (w_st w1) ch ph)).
      { destruct X2 as [(_ & N & _)|[(s' & bs & HD & Fin)|[(s' & bs & HD & Fin)|(s' & w2 & cr & ph & HD & _)]]]; [destruct (N n eq_refl)| | |destruct (NoE _ _ _ _ HD)].
        - pose proof HD as (p & pc & pc' & dg & _ & R1 & _). rewrite df24 in R1; change (dc_flags dq) with f in *. rewrite R1.
          apply self_done_made in HD as (ch & M & Bc & ->). destruct Fin as [Es [(_ & _ & Ob)|(_ & Q & _)]]; [|discriminate].
          exists ch, (repeat 0 16). split; [exact Bc|]. split; [exact zeros16|]. split; [exact Ob|]. rewrite Es. exact M.
        - pose proof HD as (p & pc & pc' & q & ch0 & dg & _ & R0 & _). rewrite df24 in R0; change (dc_flags dq) with f in *. rewrite R0.
          apply (child_done_made _ _ _ _ _ _ _ _ _ W) in HD as (ch & ph & M & Bc & Bp & ->). destruct Fin as [Es [(_ & _ & Ob)|(_ & Q & _)]]; [|discriminate].
          exists ch, ph. split; [exact Bc|]. split; [exact Bp|]. split; [exact Ob|]. rewrite Es. exact M. }
      destruct FF as (ch & ph & Bc & Bp & Ob & M). exists ch, ph.
      assert (Er : told cf resp = VDerived ch ph (repeat 0 32) 0 []).
      { destruct resp as [| |hd x y| |hd x y| | | | | |]; try (cbn [answers] in AN; destruct AN as [_ AN]; contradiction AN).
        - cbn [told]. assert (x = ch /\ y = ph) as [-> ->]; [|reflexivity].
          apply (handles_out hd); [apply Bc|apply Bp|apply AN|]. rewrite <- Ob. rewrite <- Eo, <- EB. reflexivity.
        - exfalso. cbn [answers] in AN. destruct AN as (_ & AN). cbn [dq derive_req dc_flags] in AN. rewrite B23 in AN. intuition discriminate. }
      rewrite Er. split; [reflexivity|]. split; [exact Bc|]. split; [exact Bp|]. rewrite Ew. cbn [w_st]. exact M.
    - left. exists e. split; [exact D|].
      assert (S1 : w_st w' = w_st w).
      { rewrite Ew. cbn [w_st]. destruct X2 as [(K & _)|[(s' & bs & HD & Fin)|[(s' & bs & HD & Fin)|(s' & w2 & cr & ph & HD & _)]]]; [exact K| | |destruct (NoE _ _ _ _ HD)]; exfalso.
        - apply self_done_made in HD as (ch & M & [Bc _] & ->). destruct Fin as [_ [(_ & Q & _)|(Q & _ & _)]]; [discriminate|].
          cbn [w_out] in Q. rewrite repeat_length, length_two in Q; [lia|exact Bc|reflexivity].
        - apply (child_done_made _ _ _ _ _ _ _ _ _ W) in HD as (ch & ph & M & [Bc _] & [Bp _] & ->). destruct Fin as [_ [(_ & Q & _)|(Q & _ & _)]]; [discriminate|].
          cbn [w_out] in Q. rewrite repeat_length, length_two in Q; [lia|exact Bc|exact Bp]. }
      split; [exact S1|].
      destruct (runs_err cf R pr chain issuer serial ski RF _ _ _ _ _ _ Hr WC WP Hrun) as [RS EN].
      assert (NH : no_handle ops (w_st w') e -> e = InternalError HandleGenerationExhausted /\ eight_draws cf pr dig w w').
      { intros [(ce & -> & H2)|(-> & H2)]; [destruct (ref_rand _ _ _ _ H2)|]. split; [reflexivity|].
        specialize (EN Logic.I). cbn [ref_reason] in EN. destruct EN as [[_ EN]|[Q _]]; [exact EN|discriminate]. }
      assert (NX : ~ no_extension cf ops e).
      { intros [(ce & -> & H2)|(-> & _)].
        - specialize (EN Logic.I). cbn [ref_reason] in EN. destruct EN as [(_ & Q & _)|(_ & Q & _)];
            cbn [uses_key exports_cdi dq derive_req dc_flags] in Q; congruence.
        - specialize (EN Logic.I). cbn [ref_reason] in EN. destruct EN as [[Q _]|[Q _]]; discriminate. }
      destruct RS as [[[_ Q]|RS]|RS].
      + exfalso. rewrite Ws in Q. cbn [fixed_size dq derive_req dc_flags] in Q. rewrite B23 in Q. lia.
      + cbn [refusal] in RS. change (dc_flags dq) with f in RS. change (dc_target_locality dq) with tl in RS. change (dc_handle dq) with h in RS. change (dc_tci_type dq) with ty in RS.
        unfold derive_refused. cbv zeta. fold dq. fold (target_of f l tl) in RS.
        destruct RS as [RS|[RS|(j & x & F & A & RS)]]; [auto|auto|].
        destruct RS as [RS|RS]; [right; right; right; exists j, x; auto|].
        rewrite B23 in RS. destruct (N.testbit f 24) eqn:B24.
        * destruct RS as [RS|[RS|[RS|(_ & RS)]]]; [| |destruct (NX RS)|right; right; left; exact (NH RS)];
            right; right; right; exists j, x; auto 7.
        * destruct RS as [(_ & _ & RS)|[RS|[RS|[RS|(_ & RS)]]]]; [right; right; left; exact (NH RS)| | |destruct (NX RS)|right; right; left; exact (NH RS)];
            right; right; right; exists j, x; auto 7.
      + exfalso. cbn [writer_refusal dq derive_req dc_flags] in RS. destruct RS as [Q _]. congruence.
  Qed.
End Live.
