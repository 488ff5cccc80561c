(** SamplesProofs.v -- what the sample programs do with their instance. *)
From Coq Require Import String.
From Verif Require Import Base Errors Types StateOps Env Wire Instance Commands RespBuf Response X509 X509Cert RustCrypto DefaultPlatform Simulator Samples
  Lib Spec Exec Effects Forest History WireSpec Contract Codec Steps Reach CommandSpecs Responses Execute Walk Measure Reasons Explain Avail Ledger SimulatorProofs Der DerProofs X509Run X509Spec
  X509Bytes X509Enc X509Tbs X509Cms X509Out X509Proper X509Gen X509Read X509ReadOk X509Made X509Cmd X509Odd X509Facts X509Size X509Width
  X509Fit X509Fail X509Sane Buffers Fits PlatformProofs RustProofs Trace TraceCmds TraceRust RefFaults
  Props_Commands Props_Avail Props_Reference Props_Size Props_Fail Props_Calls Props_Harness Viewer ViewerProofs ViewerCmd KeyProofs.
Open Scope N_scope.

(** ** States whose first slots are in use, and no others *)

Definition blank (c : context) : Prop := c_state c = Inactive /\ c_handle c = repeat 0 16.
Definition shape (s : state) (l : list context) : Prop :=
  exists f, st_contexts s = l ++ f /\ Forall live l /\ Forall blank f.

Lemma shape_slot s l j c : shape s l -> at_slot s j c -> live c -> nth_error l j = Some c.
Proof.
  intros (f & E & _ & FI) A L. unfold at_slot in A. rewrite E in A.
  destruct (Nat.lt_ge_cases j (List.length l)) as [H|H]; [rewrite nth_error_app1 in A by exact H; exact A|].
  rewrite nth_error_app2 in A by exact H. apply nth_error_In in A. rewrite Forall_forall in FI. destruct (L (proj1 (FI _ A))).
Qed.
Lemma shape_at s l j c : shape s l -> nth_error l j = Some c -> at_slot s j c /\ live c.
Proof.
  intros (f & E & FL & _) A. split.
  - unfold at_slot. rewrite E, nth_error_app1; [exact A|]. apply nth_error_Some. congruence.
  - rewrite Forall_forall in FL. apply FL. eapply nth_error_In; eauto.
Qed.
Lemma shape_free s l k : shape s l -> first_slot (free_at s) k -> k = List.length l.
Proof.
  intros SH [(c & A & I) F]. destruct SH as (f & E & FL & FI). unfold at_slot in A.
  destruct (Nat.lt_trichotomy k (List.length l)) as [H|[H|H]]; [|exact H|]; exfalso.
  - rewrite E, nth_error_app1 in A by exact H. apply nth_error_In in A. rewrite Forall_forall in FL. exact (FL _ A I).
  - apply (F (List.length l) H). assert (KL : (k < List.length (st_contexts s))%nat) by (apply nth_error_Some; congruence).
    rewrite E, app_length in KL. destruct f as [|x f]; [cbn in KL; lia|]. exists x. split; [|inversion FI as [|? ? []]; assumption].
    unfold at_slot. rewrite E, nth_error_app2, Nat.sub_diag by lia. reflexivity.
Qed.
Lemma shape_has_free s l : shape s l -> (List.length l < List.length (st_contexts s))%nat -> exists c, at_slot s (List.length l) c /\ c_state c = Inactive.
Proof.
  intros (f & E & _ & FI) H. rewrite E, app_length in H. destruct f as [|x f]; [cbn in H; lia|]. exists x. split; [|inversion FI as [|? ? []]; assumption].
  unfold at_slot. rewrite E, nth_error_app2, Nat.sub_diag by lia. reflexivity.
Qed.
Lemma nth_upd {A} (l : list A) i j x : nth_error (upd l i x) j = if Nat.eqb j i then option_map (fun _ => x) (nth_error l i) else nth_error l j.
Proof.
  revert i j. induction l as [|a l IH]; intros [|i] [|j]; cbn [upd nth_error Nat.eqb option_map]; try reflexivity.
  - destruct (Nat.eqb j i); reflexivity.
  - apply IH.
Qed.
Lemma upd_len {A} (l : list A) i x : List.length (upd l i x) = List.length l.
Proof. revert i. induction l as [|a l IH]; intros [|i]; cbn [upd List.length]; auto. Qed.
Lemma shape_step s s' l p pc' new : shape s l -> (p < List.length l)%nat -> live pc' -> live new ->
  only_slots (fun j => j = p \/ j = List.length l) s s' -> at_slot s' p pc' -> at_slot s' (List.length l) new ->
  shape s' (upd l p pc' ++ [new]).
Proof.
  intros (f & E & FL & FI) Hp Lp Ln (_ & SL & SO) Ap An.
  assert (NF : exists x f', f = x :: f').
  { destruct f as [|x f']; [|eauto]. exfalso. unfold at_slot in An. assert (X : (List.length l < List.length (st_contexts s'))%nat) by (apply nth_error_Some; congruence).
    rewrite SL, E, app_length in X. cbn in X. lia. }
  destruct NF as (x & f' & ->). exists f'. split; [|split].
  - apply list_ext. intros j. rewrite <- app_assoc. cbn [app].
    destruct (Nat.eq_dec j p) as [->|Np].
    { unfold at_slot in Ap. rewrite Ap, nth_error_app1 by (rewrite upd_len; exact Hp). rewrite nth_upd, Nat.eqb_refl.
      destruct (nth_error l p) eqn:EL; [reflexivity|]. apply nth_error_None in EL. lia. }
    destruct (Nat.eq_dec j (List.length l)) as [->|Nk].
    { unfold at_slot in An. rewrite An, nth_error_app2 by (rewrite upd_len; lia). rewrite upd_len, Nat.sub_diag. reflexivity. }
    rewrite SO by tauto. rewrite E. destruct (Nat.lt_ge_cases j (List.length l)) as [H|H].
    + rewrite !nth_error_app1 by (rewrite ?upd_len; exact H). rewrite nth_upd. destruct (Nat.eqb_spec j p); [contradiction|reflexivity].
    + rewrite !nth_error_app2 by (rewrite ?upd_len; exact H). rewrite upd_len.
      assert (X : (j - List.length l = S (j - List.length l - 1))%nat) by lia. rewrite X. reflexivity.
  - apply Forall_app. split; [|constructor; [exact Ln|constructor]]. clear -FL Lp. revert p. induction FL; intros [|p]; cbn [upd]; constructor; auto.
  - inversion FI; assumption.
Qed.

Section Samples.
  Variable cf : config.
  Context {R : Type}.
  Variable pr : primitives R.
  Variables chain issuer serial ski : bytes.
  Notation dig := (backend_digest (prof cf)).
  Hypothesis Hcf : config_ok cf.
  Notation co := (rust_ops R pr (profile_alg (prof cf)) dig).
  Notation po := (default_platform chain issuer serial ski).
  Notation world := (world (rust_c R) unit).
  Notation gen := (x509_gen cf (rust_c R) unit co po).
  Notation exec := (exec_command cf (rust_c R) unit co po gen).
  Notation send := (send cf R pr chain issuer serial ski).
  Notation sample_derive := (sample_derive cf R pr chain issuer serial ski).

  (** The world a command is executed in. *)
  Definition called (cmd : command) (w : world) : world := mkWorld (w_st w) (w_c w) (w_p w) (repeat 0 (N.to_nat (wire_size cf cmd))).

  Lemma send_spec cmd w r w' : reachable cf (w_st w) -> command_wf cf cmd -> WireSpec.for_profile cf cmd -> send cmd w = (r, w') ->
    exists r1 w1, exec cmd 0 (called cmd w) = (r1, w1) /\ w_st w' = w_st w1 /\ w_c w' = w_c w1 /\ reachable cf (w_st w1) /\
      match r1 with
      | Ok n => exists resp, r = Some resp /\ answers cf cmd resp /\ response_bytes resp = w_out w1
      | Err e => exists h, r = Some (RespError h)
      | Crash k => r = None
      end.
  Proof.
    intros Hr HW HP H. pose proof (reachable_wf cf Hcf _ Hr) as W. unfold Samples.send in H.
    destruct (execute_serialized_command cf (rust_c R) unit co po gen 0 (serialize_command cf cmd) w) as [r0 w0] eqn:E.
    apply (serialized_spec cf) in E; [|exact W].
    rewrite <- (app_nil_r (serialize_command cf cmd)), (deserialize_serialize cf cmd []) in E by assumption.
    destruct E as (re & E & Er). apply (execute_spec cf Hcf) in E as (r1 & w1 & EX & E0 & Er1); [|apply x509_sane; exact Hcf|exact W|exact HW].
    exists r1, w1. split; [exact EX|]. subst w0.
    assert (Ew : w' = mkWorld (w_st w1) (w_c w1) (w_p w1) (w_out w)) by (destruct r0; injection H as _ <-; reflexivity).
    rewrite Ew. split; [reflexivity|]. split; [reflexivity|]. split.
    { pose (en := {| e_C := rust_c R; e_P := unit; e_crypto := co; e_platform := po; e_cert := gen |}).
      destruct Hr as [h Hh']. exists (EvCommand cmd 0 r1 :: h).
      eapply (hi_command cf _ _ h (w_st w) en); [exact Hh'|exact Logic.I|exact HW|reflexivity|exact Logic.I|].
      unfold called in EX. destruct w1 as [s1 c1 p1 o1]. do 6 eexists. exact EX. }
    destruct r1 as [n|e|k].
    - destruct Er1 as (resp & -> & A & B & _). subst r0. exists resp. injection H as <- _. auto.
    - subst re r0. injection H as <- _. eauto.
    - subst re r0. injection H as <- _. reflexivity.
  Qed.

  Definition derive_of (h : bytes) (data : bytes) (ty svn flags : N) : derive_cmd :=
    {| dc_handle := h; dc_data := data; dc_flags := N.lor flags (bit 25); dc_tci_type := ty; dc_target_locality := 0; dc_svn := svn |}.
  Definition new_context (ch dg data : bytes) (ty svn : N) (p : nat) (t : ctx_type) (e r : bool) : context :=
    {| c_handle := ch; c_tci := mkTci ty dg data 0 svn; c_children := 0; c_locality := 0; c_parent := p; c_type := t; c_state := Active;
       c_info := false; c_dice := false; c_x509 := true; c_export := e; c_recursive := r |}.
  (** Flags of the samples: RETAIN_PARENT (29) and MAKE_DEFAULT (28) at most. *)
  Definition plain (flags : N) : Prop := flags = 0 \/ flags = bit 28 \/ flags = bit 29.

  (** A DeriveContext that was answered. *)
  Lemma derive_grows h data ty svn flags w ph ch w' l :
    reachable cf (w_st w) -> byte_string 16 h -> byte_string (tci_size cf) data -> u32 ty -> u32 svn -> plain flags -> shape (w_st w) l ->
    sample_derive h data ty svn flags w = (Some (ph, ch), w') ->
    reachable cf (w_st w') /\ st_support (w_st w') = st_support (w_st w) /\ st_flags (w_st w') = st_flags (w_st w) /\
    byte_string 16 ph /\ byte_string 16 ch /\
    exists p pc pc' dg e r,
      first_slot (names (w_st w) h 0) p /\ nth_error l p = Some pc /\ c_state pc = Active /\ c_locality pc = 0 /\ c_handle pc = h /\
      hash_of co [repeat 0 (tci_size cf); data] dg /\
      shape (w_st w') (upd l p pc' ++ [new_context ch dg data ty svn p (c_type pc) e r]) /\
      (if N.testbit flags 28 then ch = repeat 0 16 else fresh_handle (w_st w) ch) /\
      c_parent pc' = c_parent pc /\ c_tci pc' = c_tci pc /\ c_locality pc' = 0 /\ c_x509 pc' = c_x509 pc /\ c_handle pc' = ph /\
      (if N.testbit flags 29 then c_state pc' = Active /\ refreshed (w_st w) pc ph else c_state pc' = Retired).
  Proof.
    intros Hr Bh Bd Ut Us PF SH H. pose proof (reachable_wf cf Hcf _ Hr) as W. unfold Samples.sample_derive in H.
    fold (derive_of h data ty svn flags) in H. set (d := derive_of h data ty svn flags) in *.
    assert (HW : command_wf cf (CmdDeriveContext d)).
    { cbn [command_wf d derive_of dc_handle dc_data dc_flags dc_tci_type dc_target_locality dc_svn]. destruct Bh, Bd.
      repeat split; try assumption; destruct PF as [->|[->| ->]]; reflexivity. }
    destruct (send (CmdDeriveContext d) w) as [r w2] eqn:ES.
    apply send_spec in ES as (r1 & w1 & EX & Es & _ & Hr1 & Er); [|exact Hr|exact HW|exact Logic.I].
    assert (B24 : N.testbit (dc_flags d) 24 = false) by (unfold d, derive_of; destruct PF as [->|[->| ->]]; reflexivity).
    assert (B23 : N.testbit (dc_flags d) 23 = false) by (unfold d, derive_of; destruct PF as [->|[->| ->]]; reflexivity).
    assert (B27 : N.testbit (dc_flags d) 27 = false) by (unfold d, derive_of; destruct PF as [->|[->| ->]]; reflexivity).
    assert (B25 : N.testbit (dc_flags d) 25 = true) by (unfold d, derive_of; destruct PF as [->|[->| ->]]; reflexivity).
    assert (B30 : N.testbit (dc_flags d) 30 = false) by (unfold d, derive_of; destruct PF as [->|[->| ->]]; reflexivity).
    assert (B31 : N.testbit (dc_flags d) 31 = false) by (unfold d, derive_of; destruct PF as [->|[->| ->]]; reflexivity).
    assert (B28 : N.testbit (dc_flags d) 28 = N.testbit flags 28) by (unfold d, derive_of; destruct PF as [->|[->| ->]]; reflexivity).
    assert (B29 : N.testbit (dc_flags d) 29 = N.testbit flags 29) by (unfold d, derive_of; destruct PF as [->|[->| ->]]; reflexivity).
    destruct r1 as [n|e|k]; [|destruct Er as [hd ->]; discriminate H|subst r; discriminate H].
    destruct Er as (resp & -> & AN & EB). destruct resp as [| |hd x y| | | | | | | |]; try discriminate H.
    injection H as <- <- <-. rewrite Es. cbn [answers] in AN. destruct AN as (_ & _ & Bx & By). pose proof Bx as [Lx _]. pose proof By as [Ly _].
    assert (Ox : slice (w_out w1) 12 16 = x).
    { rewrite <- EB. unfold response_bytes. cbn [response_fields hdr_fields List.concat app]. rewrite app_nil_r.
      match goal with |- slice (?a ++ ?b ++ ?c ++ ?q ++ ?z) _ _ = _ => replace (a ++ b ++ c ++ q ++ z) with ((a ++ b ++ c) ++ q ++ z) by (rewrite <- ?app_assoc; reflexivity) end.
      apply slice_at; [rewrite !app_length, !length_le_bytes; reflexivity|exact Lx]. }
    assert (Oy : slice (w_out w1) 28 16 = y).
    { rewrite <- EB. unfold response_bytes. cbn [response_fields hdr_fields List.concat app].
      match goal with |- slice (?a ++ ?b ++ ?c ++ ?q ++ ?z ++ ?n) _ _ = _ => replace (a ++ b ++ c ++ q ++ z ++ n) with ((a ++ b ++ c ++ q) ++ z ++ n) by (rewrite <- ?app_assoc; reflexivity) end.
      apply slice_at; [rewrite !app_length, !length_le_bytes, Lx; reflexivity|exact Ly]. }
    pose proof EX as EF. apply (command_effect cf _ _ co po gen Hcf) in EF; [|exact W]. destruct EF as [(n' & _ & EF)|[X _]]; [|destruct (X n eq_refl)].
    apply (command_reported cf Hcf) in EX as [_ RP]; [|exact W]. change (w_st (called (CmdDeriveContext d) w)) with (w_st w) in *.
    cbn [effect] in EF. cbn [Contract.reported] in RP. rewrite B24, B23 in EF. rewrite B24, B23 in RP.
    destruct EF as (p & pc & pc' & q & h0 & dg & (G1 & G2 & _) & Q & _ & SO & HO & _ & Hh0 & N1 & N2 & SI & ST & _ & PS).
    destruct RP as (p0 & pc0 & P1 & P2 & _ & Py & k0 & c0 & K1 & K2 & Kx).
    rewrite B28, B27, B29, B30, B31, B25 in *. cbn [d derive_of dc_handle dc_tci_type dc_svn dc_data] in *.
    assert (p0 = p) by (eapply first_slot_det; eauto). subst p0. assert (k0 = q) by (eapply first_slot_det; eauto). subst k0.
    assert (pc0 = pc') by (unfold at_slot in *; congruence). subst pc0.
    assert (Eh : h0 = x) by (unfold at_slot in K2, N1; rewrite N1 in K2; apply (f_equal (option_map c_handle)) in K2; cbn [option_map c_handle] in K2; congruence).
    subst h0. pose proof (shape_free _ _ _ SH Q) as Eq. subst q.
    pose proof G1 as ((pd & D1 & D2 & D3 & D4) & _). assert (pd = pc) by (unfold at_slot in *; congruence). subst pd.
    assert (Lp : nth_error l p = Some pc) by (eapply shape_slot; [exact SH|exact D1|unfold live; rewrite D2; discriminate]).
    assert (Ln : (p < List.length l)%nat) by (apply nth_error_Some; congruence).
    pose proof SO as ((_ & _ & SS & SF & _) & _).
    split; [exact Hr1|]. split; [exact SS|]. split; [exact SF|]. split; [exact By|]. split; [exact Bx|].
    destruct SI as (S1 & _ & S3 & _ & _ & S6 & _).
    exists p, pc, pc', dg, (N.testbit (dc_flags d) 26 && c_export pc)%bool, (N.testbit (dc_flags d) 21 && c_recursive pc)%bool.
    split; [exact G1|]. split; [exact Lp|]. split; [exact D2|]. split; [exact D3|]. split; [exact D4|]. split; [exact HO|]. split.
    { apply shape_step with (s := w_st w); try assumption; [|discriminate]. unfold live. destruct (N.testbit flags 29); destruct PS as [-> _]; discriminate. }
    split; [exact Hh0|]. split; [exact S1|]. split; [exact ST|]. split; [congruence|]. split; [exact S6|]. split; [congruence|].
    destruct (N.testbit flags 29); destruct PS as [PS1 PS2]; [|exact PS1]. split; [exact PS1|]. rewrite <- Oy, Py. exact PS2.
  Qed.
  (** A CertifyKey that was answered. *)
  Definition certify_of (h : bytes) (format : N) : certify_command :=
    let k := {| ck_handle := h; ck_flags := 0; ck_format := format; ck_label := repeat 0 (profile_hash_size (prof cf)) |} in
    match prof cf with P256Sha256 => CertifyP256 k | P384Sha384 => CertifyP384 k | Mldsa87 => CertifyMldsa87 k end.
  Lemma certify_of_wf h format : byte_string 16 h -> u32 format ->
    command_wf cf (CmdCertifyKey (certify_of h format)) /\ WireSpec.for_profile cf (CmdCertifyKey (certify_of h format)) /\
    certify_profile (certify_of h format) = prof cf /\ presents (CmdCertifyKey (certify_of h format)) h.
  Proof.
    intros Bh Uf.
    assert (Z : forall n, byte_string n (repeat 0 n)).
    { intros n. split; [apply repeat_length|]. apply Forall_forall. intros y Hy. apply repeat_spec in Hy. subst y. reflexivity. }
    unfold certify_of. destruct (prof cf) eqn:EP; cbn [command_wf WireSpec.for_profile certify_profile presents]; unfold certify_wf; cbn [ck_handle ck_flags ck_format ck_label];
      (split; [|split; [first [exact EP|reflexivity|symmetry; exact EP]|split; reflexivity]]); (split; [exact Bh|]); repeat split; try reflexivity; try assumption; try apply (Z 32%nat); try apply (Z 48%nat).
  Qed.

  Lemma certify_output h format w c :
    reachable cf (w_st w) -> byte_string 16 h -> u32 format ->
    sample_certify cf R pr chain issuer serial ski (prof cf) h format w = Some c ->
    let cmd := CmdCertifyKey (certify_of h format) in
    exists n w1, exec cmd 0 (called cmd w) = (Ok n, w1) /\ c = output cmd n (w_out w1).
  Proof.
    intros Hr Bh Uf H cmd. destruct (certify_of_wf h format Bh Uf) as (HW & FP & Epf & _). fold cmd in HW, FP.
    pose proof (reachable_wf cf Hcf _ Hr) as W.
    unfold sample_certify in H.
    assert (EC : forall k, k = {| ck_handle := h; ck_flags := 0; ck_format := format; ck_label := repeat 0 (profile_hash_size (prof cf)) |} ->
      CmdCertifyKey (match prof cf with P256Sha256 => CertifyP256 k | P384Sha384 => CertifyP384 k | Mldsa87 => CertifyMldsa87 k end) = cmd) by (intros k ->; reflexivity).
    cbv zeta in H. rewrite EC in H by reflexivity. destruct (send cmd w) as [r w2] eqn:ES. cbn [fst] in H.
    apply send_spec in ES as (r1 & w1 & EX & Es & _ & Hr1 & Er); [|exact Hr|exact HW|exact FP].
    destruct r1 as [n|e|k]; [|destruct Er as [hd ->]; discriminate H|subst r; discriminate H].
    destruct Er as (resp & -> & AN & EB). exists n, w1. split; [exact EX|].
    destruct resp as [| | | | |q hd x pk z cert| | | | |]; try discriminate H.
    assert (PA : response_bytes_partial cf (RespCertifyKey q hd x pk z cert) = Ok (firstn (N.to_nat n) (w_out w1))).
    { eapply (partial_answer cf Hcf _ _ co po); [apply reference_signatures|exact W|exact HW| |apply wire_fits; exact FP|exact EX|exact AN|exact EB]. reflexivity. }
    destruct AN as (_ & Ep & [Lx _] & [Lp _] & Uz & [Lc _]). rewrite Epf in Ep. subst q.
    assert (Lb : List.length (w_out w1) = (output_start cmd + N.to_nat (max_cert_size cf))%nat).
    { rewrite <- EB. unfold response_bytes. cbn [response_fields hdr_fields List.concat app]. rewrite !app_length, !length_le_bytes, Lx, Lp, Lc.
      unfold cmd, certify_of, output_start. destruct (prof cf); cbn [List.length]; lia. }
    assert (Ec : skipn (output_start cmd) (w_out w1) = cert).
    { rewrite <- EB. unfold response_bytes. cbn [response_fields hdr_fields List.concat app]. rewrite app_nil_r.
      match goal with |- skipn _ (?a ++ ?b ++ ?d ++ ?x ++ ?y ++ ?q ++ ?r) = _ =>
        replace (a ++ b ++ d ++ x ++ y ++ q ++ r) with ((a ++ b ++ d ++ x ++ y ++ q) ++ r) by (rewrite <- ?app_assoc; reflexivity) end.
      rewrite skipn_app. match goal with |- skipn ?o ?a ++ skipn ?m _ = _ => assert (La : List.length a = o) by
        (rewrite !app_length, !length_le_bytes, Lx, Lp; unfold cmd, certify_of, output_start; destruct (prof cf); lia) end.
      rewrite La, Nat.sub_diag. rewrite (skipn_all2 (n := output_start cmd)) by lia. reflexivity. }
    cbn [response_bytes_partial] in PA. unfold prefix_or in PA. rewrite EB in PA.
    destruct (N.leb_spec (N.of_nat (List.length (w_out w1)) - max_cert_size cf + z) (N.of_nat (List.length (w_out w1)))) as [Lz|Lz]; [|discriminate PA].
    assert (M : (N.to_nat n <= List.length (w_out w1))%nat).
    { pose proof (reachable_wf cf Hcf _ Hr1) as W1. exact (proj1 (command_measured cf co po cmd 0 _ _ _ EX (wf_handles16 cf _ W1))). }
    assert (En : (N.to_nat n = output_start cmd + N.to_nat z)%nat).
    { apply (f_equal (fun r => match r with Ok b => List.length b | _ => 0%nat end)) in PA. rewrite !firstn_length in PA. lia. }
    unfold response_cert, prefix_or in H. destruct (N.leb_spec z (N.of_nat (List.length cert))) as [Lz'|Lz']; [|discriminate H].
    injection H as <-. unfold output, slice. rewrite Ec. f_equal. lia.
  Qed.

  (** A new instance. *)
  Lemma start_shape support flags seed w : u32 support -> N.testbit support AUTO_INIT = true ->
    sample_start cf R pr chain issuer serial ski support flags seed = Some w ->
    reachable cf (w_st w) /\ st_support (w_st w) = support /\ st_flags (w_st w) = flags /\
    shape (w_st w) [auto_context 0 0 (repeat 0 (tci_size cf)) (repeat 0 (tci_size cf))].
  Proof.
    intros US AI H. unfold sample_start in H. pose (en := {| e_C := rust_c R; e_P := unit; e_crypto := co; e_platform := po; e_cert := gen |}).
    destruct (dpe_new cf (rust_c R) unit co po (mkWorld (state_new cf support flags) (rust_new R seed) tt [])) as [r w'] eqn:EN.
    destruct r as [[]|e|k]; try discriminate H. injection H as ->.
    split. { destruct w as [s c' p o]. exists [EvNew (Ok tt)]. eapply (hi_create cf _ _ [] _ en); [apply hi_new, US|exact Logic.I| |intros; exact Logic.I].
      do 6 eexists. exact EN. }
    destruct (dpe_new_fresh cf en support flags (mkWorld (state_new cf support flags) (rust_new R seed) tt []) (Ok tt) w eq_refl EN) as [_ [[E0 X]|(_ & _ & a & p' & EA & _ & E0)]].
    { exfalso. destruct X as [X _]. specialize (X eq_refl). congruence. }
    assert (Ea : a = 0) by (cbn in EA; injection EA as <- _; reflexivity). subst a. change (0 mod 2 ^ 32) with 0 in E0.
    assert (E1 : w_st w = auto_state cf support flags (auto_context 0 0 (repeat 0 (tci_size cf)) (repeat 0 (tci_size cf)))) by exact E0. clear E0.
    rewrite E1. split; [reflexivity|]. split; [reflexivity|].
    exists (repeat (ctx_new cf) (max_handles cf - 1)). split; [|split].
    - unfold auto_state. cbn [put_ctx set_contexts set_init state_new st_contexts]. destruct Hcf as ((M & _) & _).
      destruct (max_handles cf) as [|m]; [lia|]. cbn [repeat upd Nat.sub app]. rewrite Nat.sub_0_r. reflexivity.
    - constructor; [discriminate|constructor].
    - apply Forall_forall. intros c Hc. apply repeat_spec in Hc. subst c. split; reflexivity.
  Qed.
  Lemma start_succeeds support flags seed : u32 support -> exists w, sample_start cf R pr chain issuer serial ski support flags seed = Some w.
  Proof.
    intros US. pose (en := {| e_C := rust_c R; e_P := unit; e_crypto := co; e_platform := po; e_cert := gen |}). unfold sample_start.
    destruct (dpe_new cf (rust_c R) unit co po (mkWorld (state_new cf support flags) (rust_new R seed) tt [])) as [r w'] eqn:EN.
    destruct (C36_new_succeeds cf en support flags _ _ _ _ _ Hcf US EN) as [->|(pe & p' & _ & X & _)]; [eauto|discriminate].
  Qed.
  Lemma shape_names s l h p c : shape s l -> nth_error l p = Some c -> c_state c = Active -> c_locality c = 0 -> c_handle c = h ->
    (forall j d, (j < p)%nat -> nth_error l j = Some d -> c_state d = Active -> c_handle d <> h) -> first_slot (names s h 0) p.
  Proof.
    intros SH E A B D F. destruct (shape_at _ _ _ _ SH E) as [X _]. split; [exists c; auto|].
    intros j Hj (d & Y1 & Y2 & _ & Y4). eapply (F j d Hj); [|exact Y2|exact Y4]. eapply shape_slot; [exact SH|exact Y1|unfold live; rewrite Y2; discriminate].
  Qed.
  Lemma shape_fits s l : reachable cf s -> shape s l -> (List.length l <= max_handles cf)%nat.
  Proof.
    intros Hr (f & E & _). rewrite <- (fo_size _ _ (wf_forest _ _ (reachable_wf cf Hcf _ Hr))), E, app_length. lia.
  Qed.
  Lemma fresh_in s l h j d : shape s l -> fresh_handle s h -> nth_error l j = Some d -> c_handle d <> h.
  Proof. intros SH (_ & _ & F) E. destruct (shape_at _ _ _ _ SH E) as [X _]. apply (F j d X). Qed.
  Lemma small_slot s j c : reachable cf s -> at_slot s j c -> j <> ROOT.
  Proof.
    intros Hr A. pose proof (reachable_wf cf Hcf _ Hr) as W. unfold at_slot in A. assert (KL : (j < List.length (st_contexts s))%nat) by (apply nth_error_Some; congruence).
    rewrite (fo_size _ _ (wf_forest _ _ W)) in KL. destruct Hcf as ((_ & M) & _). unfold ROOT. lia.
  Qed.
  Lemma grown h data ty svn flags w ph ch w' l :
    sample_derive h data ty svn flags w = (Some (ph, ch), w') -> shape (w_st w) l ->
    reachable cf (w_st w) -> byte_string 16 h -> byte_string (tci_size cf) data -> u32 ty -> u32 svn -> plain flags ->
    reachable cf (w_st w') /\ st_support (w_st w') = st_support (w_st w) /\ st_flags (w_st w') = st_flags (w_st w) /\
    byte_string 16 ph /\ byte_string 16 ch /\
    exists p pc pc' dg e r,
      first_slot (names (w_st w) h 0) p /\ nth_error l p = Some pc /\ c_state pc = Active /\ c_locality pc = 0 /\ c_handle pc = h /\
      hash_of co [repeat 0 (tci_size cf); data] dg /\
      shape (w_st w') (upd l p pc' ++ [new_context ch dg data ty svn p (c_type pc) e r]) /\
      (if N.testbit flags 28 then ch = repeat 0 16 else fresh_handle (w_st w) ch) /\
      c_parent pc' = c_parent pc /\ c_tci pc' = c_tci pc /\ c_locality pc' = 0 /\ c_x509 pc' = c_x509 pc /\ c_handle pc' = ph /\
      (if N.testbit flags 29 then c_state pc' = Active /\ refreshed (w_st w) pc ph else c_state pc' = Retired).
  Proof. intros. eapply derive_grows; eassumption. Qed.
  (** The chain of contexts, given by their slots from the leaf to the root. *)
  Fixpoint climbs (l : list context) (js : list nat) (cts : list context) : Prop :=
    match js, cts with
    | [j], [c] => nth_error l j = Some c /\ c_parent c = ROOT
    | j :: ((k :: _) as js), c :: cts => nth_error l j = Some c /\ c_parent c = k /\ climbs l js cts
    | _, _ => False
    end.
  Lemma climbs_lineage s l : reachable cf s -> shape s l -> forall js cts j, climbs l (j :: js) cts -> lineage s j cts.
  Proof.
    intros Hr SH. induction js as [|k js IH]; intros cts j H.
    - destruct cts as [|c [|]]; try destruct H. destruct (shape_at _ _ _ _ SH H) as [A L]. exists [j]. split; [eapply path_root; eauto|]. constructor; [exact A|constructor].
    - destruct cts as [|c cts]; [destruct H|]. destruct H as (H1 & H2 & H3). destruct (IH _ _ H3) as (q & P & F).
      destruct (shape_at _ _ _ _ SH H1) as [A L]. exists (j :: q). split; [|constructor; assumption].
      eapply path_step; [exact A|exact L| |rewrite H2; exact P].
      rewrite H2. assert (X : exists d, at_slot s k d) by (inversion P; eauto). destruct X as [d X]. eapply small_slot; eauto.
  Qed.

  Notation zeros := (repeat 0 (tci_size cf)).
  Lemma zeros_ok n : byte_string n (repeat 0 n).
  Proof. split; [apply repeat_length|]. apply Forall_forall. intros y Hy. apply repeat_spec in Hy. subst y. reflexivity. Qed.
  Lemma hash_is l d : hash_of co l d -> d = digest_bytes (rust_hash pr dig (List.concat l)).
  Proof.
    intros (c & c0 & c1 & c2 & c3 & dg & A & B & D & E & ->). f_equal.
    exact (fb_hash _ _ _ _ (rust_faithful pr (profile_alg (prof cf)) dig) _ _ _ _ _ _ _ A B D E).
  Qed.
  Notation measured := (digest_bytes (rust_hash pr dig (zeros ++ zeros))).
  Lemma zeros_hash dg : hash_of co [zeros; zeros] dg -> dg = measured.
  Proof. intros H. apply hash_is in H. cbn [List.concat] in H. rewrite app_nil_r in H. exact H. Qed.

  (** What the certificate or request [c] was made of. *)
  Definition made_of (support flags : N) (format : N) (tcis : list tci) (c : bytes) : Prop :=
    exists w h n w1 i cts, let cmd := CmdCertifyKey (certify_of h format) in
      reachable cf (w_st w) /\ st_support (w_st w) = support /\ st_flags (w_st w) = flags /\ byte_string 16 h /\
      first_slot (names (w_st w) h 0) i /\ lineage (w_st w) i cts /\ map c_tci cts = tcis /\
      exec cmd 0 (called cmd w) = (Ok n, w1) /\ c = output cmd n (w_out w1).

  Lemma sample_made critical csr seed label c : prof cf = sample_profile cf ->
    sample_main cf R pr chain issuer serial ski critical csr seed = Some (label, c) ->
    label = (if csr then "PKCS7" else "CERTIFICATE")%string /\ (2 <= max_handles cf)%nat /\
    made_of sample_support (if critical then bit 15 else 0) (if csr then 1 else 0)
      [mkTci (letters str_TEST) measured zeros 0 0; mkTci 0 zeros zeros 0 0] c.
  Proof.
    intros EP H. unfold sample_main in H.
    destruct (sample_start cf R pr chain issuer serial ski sample_support _ seed) as [w0|] eqn:E0; [|discriminate H].
    apply start_shape in E0 as (R0 & S0 & F0 & H0); [|reflexivity|reflexivity].
    destruct (sample_derive (repeat 0 handle_size) zeros (letters str_TEST) 0 (bit 28) w0) as [[[ph ch]|] w1] eqn:E1; [|discriminate H].
    destruct (grown _ _ _ _ _ _ _ _ _ _ E1 H0 R0 (zeros_ok 16) (zeros_ok _) eq_refl eq_refl (or_intror (or_introl eq_refl))) as (R1 & S1 & F1 & _ & _ & p & pc & pc' & dg & e & r & N1 & L1 & A1 & _ & _ & HH & H1 & C1 & P1 & T1 & _ & _ & _ & Q1).
    destruct p as [|p]; [|destruct p; discriminate L1]. injection L1 as <-. cbn [upd app] in H1. apply zeros_hash in HH. subst dg.
    change (N.testbit (bit 28) 28) with true in C1. change (N.testbit (bit 28) 29) with false in Q1. cbv iota in C1, Q1. subst ch.
    destruct (sample_certify _ _ _ _ _ _ _ _ _ _ _) as [c0|] eqn:E2; [|discriminate H]. injection H as <- <-.
    split; [destruct csr; reflexivity|]. split; [exact (shape_fits _ _ R1 H1)|].
    apply certify_output in E2 as (n & w2 & EX & ->); [|exact R1|apply (zeros_ok 16)|destruct csr; reflexivity].
    eexists w1, (repeat 0 16), n, w2, 1%nat, [_; _]. cbv zeta.
    split; [exact R1|]. split; [congruence|]. split; [congruence|]. split; [apply (zeros_ok 16)|].
    split; [|split; [|split; [|split; [exact EX|reflexivity]]]].
    - eapply shape_names; [exact H1|reflexivity|reflexivity|reflexivity|reflexivity|]. intros j d Hj Ej Aj. assert (j = 0%nat) by lia. subst j. cbn [nth_error] in Ej. congruence.
    - eapply (climbs_lineage _ _ R1 H1 [0%nat]). cbn [climbs nth_error]. split; [reflexivity|]. split; [reflexivity|]. split; [reflexivity|]. rewrite P1. reflexivity.
    - cbn [map c_tci new_context]. rewrite T1. reflexivity.
  Qed.

  Lemma build_made seed label c : prof cf = P384Sha384 ->
    build_main cf R pr chain issuer serial ski seed = Some (label, c) ->
    label = "CERTIFICATE"%string /\ (5 <= max_handles cf)%nat /\
    exists w0 p1 h1 w1 h2 c2 w2 p3 h3 w3,
    sample_start cf R pr chain issuer serial ski build_support 0 seed = Some w0 /\
    sample_derive (repeat 0 16) zeros (letters str_FW01) 1 0 w0 = (Some (p1, h1), w1) /\
    sample_derive h1 zeros (letters str_B_A1) 2 (bit 29) w1 = (Some (h2, c2), w2) /\
    sample_derive h2 zeros (letters str_B_B1) 2 (bit 29) w2 = (Some (p3, h3), w3) /\
    (p3 <> h3 /\ made_of build_support 0 0
       [mkTci (letters str_LEAF) measured zeros 0 3; mkTci (letters str_B_B1) measured zeros 0 2; mkTci (letters str_FW01) measured zeros 0 1; mkTci 0 zeros zeros 0 0] c \/
     p3 = h3 /\ made_of build_support 0 0
       [mkTci (letters str_LEAF) measured zeros 0 3; mkTci (letters str_FW01) measured zeros 0 1; mkTci 0 zeros zeros 0 0] c).
  Proof.
    intros EP H. unfold build_main in H.
    destruct (sample_start cf R pr chain issuer serial ski build_support _ seed) as [w0|] eqn:E0; [|discriminate H].
    pose proof E0 as E0'. apply start_shape in E0 as (R0 & S0 & F0 & H0); [|reflexivity|reflexivity]. cbv zeta in H.
    destruct (sample_derive (repeat 0 handle_size) zeros (letters str_FW01) 1 0 w0) as [[[ph1 ch1]|] w1] eqn:E1; [|discriminate H]. pose proof E1 as E1'.
    destruct (grown _ _ _ _ _ _ _ _ _ _ E1 H0 R0 (zeros_ok 16) (zeros_ok _) eq_refl eq_refl (or_introl eq_refl)) as (R1 & S1 & F1 & _ & B1 & p & pc & rt & dg & e & r & N1 & L1 & A1 & _ & _ & HH & H1 & C1 & P1 & T1 & _ & _ & _ & Q1).
    destruct p as [|p]; [|destruct p; discriminate L1]. injection L1 as <-. cbn [upd app] in H1. apply zeros_hash in HH. subst dg.
    change (N.testbit 0 28) with false in C1. change (N.testbit 0 29) with false in Q1. cbv iota in C1, Q1. cbn [auto_context c_type c_tci c_parent] in *.
    clear N1 A1. destruct (sample_derive ch1 zeros (letters str_B_A1) 2 (bit 29) w1) as [[[ph2 ch2]|] w2] eqn:E2; [|discriminate H]. pose proof E2 as E2'.
    destruct (grown _ _ _ _ _ _ _ _ _ _ E2 H1 R1 B1 (zeros_ok _) eq_refl eq_refl (or_intror (or_intror eq_refl))) as (R2 & S2 & F2 & B2 & _ & p & pc & fw2 & dg & e2 & r2 & _ & L2 & A2 & _ & _ & HH & H2 & C2 & P2 & T2 & Lo2 & _ & Hf2 & Q2).
    destruct p as [|p]; [injection L2 as <-; congruence|]. destruct p as [|p]; [|destruct p; discriminate L2]. injection L2 as <-.
    cbn [upd app] in H2. apply zeros_hash in HH. subst dg.
    change (N.testbit (bit 29) 28) with false in C2. change (N.testbit (bit 29) 29) with true in Q2. cbv iota in C2, Q2. cbn [new_context c_type c_tci c_parent] in *.
    destruct Q2 as [St2 Re2]. clear A2.
    destruct (sample_derive ph2 zeros (letters str_B_B1) 2 (bit 29) w2) as [[[ph3 ch3]|] w3] eqn:E3; [|discriminate H].
    pose proof E3 as E3'.
    destruct (grown _ _ _ _ _ _ _ _ _ _ E3 H2 R2 B2 (zeros_ok _) eq_refl eq_refl (or_intror (or_intror eq_refl))) as (R3 & S3 & F3 & _ & B3 & p & pc & fw3 & dg & e3 & r3 & N3 & L3 & A3 & _ & Hh3 & HH & H3 & C3 & P3 & T3 & Lo3 & _ & Hf3 & Q3).
    change (N.testbit (bit 29) 28) with false in C3. change (N.testbit (bit 29) 29) with true in Q3. cbv iota in C3, Q3.
    assert (p = 1%nat).
    { destruct p as [|p]; [injection L3 as <-; congruence|]. destruct p as [|p]; [reflexivity|]. exfalso. destruct N3 as [_ N3]. apply (N3 1%nat); [lia|].
      destruct (shape_at _ _ 1%nat fw2 H2 eq_refl) as [X _]. exists fw2. auto. }
    subst p. injection L3 as <-. cbn [upd app] in H3. apply zeros_hash in HH. subst dg. destruct Q3 as [St3 Re3]. clear N3 A3.
    destruct (sample_derive ch3 zeros (letters str_LEAF) 3 0 w3) as [[[ph4 ch4]|] w4] eqn:E4; [|discriminate H].
    destruct (grown _ _ _ _ _ _ _ _ _ _ E4 H3 R3 B3 (zeros_ok _) eq_refl eq_refl (or_introl eq_refl)) as (R4 & S4 & F4 & _ & B4 & p & pc & pc4 & dg & e4 & r4 & N4 & L4 & A4 & _ & Hh4 & HH & H4 & C4 & P4 & T4 & _ & _ & _ & Q4).
    change (N.testbit 0 28) with false in C4. change (N.testbit 0 29) with false in Q4. cbv iota in C4, Q4. apply zeros_hash in HH. subst dg.
    destruct (sample_certify _ _ _ _ _ _ _ _ _ _ _) as [c0|] eqn:E5; [|discriminate H]. injection H as <- <-. split; [reflexivity|]. split.
    { pose proof (shape_fits _ _ R4 H4) as X. rewrite app_length, upd_len in X. exact X. }
    rewrite <- EP in E5.
    exists w0, ph1, ch1, w1, ph2, ch2, w2, ph3, ch3, w3. split; [reflexivity|]. split; [exact E1'|]. split; [exact E2'|]. split; [exact E3'|].
    apply certify_output in E5 as (n & w5 & EX & ->); [|exact R4|exact B4|reflexivity].
    assert (FN : forall j d, nth_error (upd [rt; fw3; new_context ch2 measured zeros (letters str_B_A1) 2 1 Normal e2 r2; new_context ch3 measured zeros (letters str_B_B1) 2 1 (c_type fw2) e3 r3] p pc4) j = Some d -> c_state d = Active -> c_handle d <> ch4).
    { intros j d Ej Aj. rewrite nth_upd in Ej. destruct (Nat.eqb j p); [|eapply (fresh_in _ _ _ _ _ H3 C4); exact Ej].
      destruct (nth_error _ p) in Ej; [|discriminate Ej]. cbn [option_map] in Ej. congruence. }
    assert (FS : first_slot (names (w_st w4) ch4 0) 4%nat).
    { eapply shape_names; [exact H4| | | | |].
      - rewrite nth_error_app2 by (rewrite upd_len; cbn [List.length]; lia). rewrite upd_len. reflexivity.
      - reflexivity.
      - reflexivity.
      - reflexivity.
      - intros j d Hj Ej Aj. rewrite nth_error_app1 in Ej by (rewrite upd_len; exact Hj). exact (FN j d Ej Aj). }
    destruct p as [|[|[|[|p]]]]; [injection L4 as <-; congruence| | | |destruct p; discriminate L4].
    - right. injection L4 as <-. cbn [upd app] in H4. split.
      2:{ eexists w4, ch4, n, w5, 4%nat, [_; _; _]. cbv zeta. split; [exact R4|]. split; [congruence|]. split; [congruence|]. split; [exact B4|]. split; [exact FS|].
        split; [|split; [|split; [exact EX|reflexivity]]].
        * eapply (climbs_lineage _ _ R4 H4 [1%nat; 0%nat]). cbn [climbs nth_error]. repeat (split; [reflexivity|]). split; [congruence|]. split; [reflexivity|]. congruence.
        * cbn [map c_tci new_context]. rewrite T4, T3, T2, T1. reflexivity. }
      congruence.
    - exfalso. injection L4 as <-. cbn [new_context c_handle] in Hh4. subst ch2. eapply (fresh_in _ _ _ 2%nat _ H2 C3); reflexivity.
    - left. injection L4 as <-. cbn [upd app] in H4. split.
      { intros X. destruct N4 as [_ N4]. apply (N4 1%nat); [lia|]. destruct (shape_at _ _ 1%nat fw3 H3 eq_refl) as [Y _]. exists fw3. repeat split; congruence. }
      eexists w4, ch4, n, w5, 4%nat, [_; _; _; _]. cbv zeta. split; [exact R4|]. split; [congruence|]. split; [congruence|]. split; [exact B4|]. split; [exact FS|].
      split; [|split; [|split; [exact EX|reflexivity]]].
      + eapply (climbs_lineage _ _ R4 H4 [3; 1; 0]%nat). cbn [climbs nth_error]. split; [reflexivity|]. split; [reflexivity|]. split; [reflexivity|]. split; [rewrite P4; reflexivity|]. split; [reflexivity|]. split; [rewrite P3, P2; reflexivity|]. split; [reflexivity|]. rewrite P1. reflexivity.
      + cbn [map c_tci new_context] in *. rewrite T4, T3, T2, T1. reflexivity.
  Qed.
End Samples.
