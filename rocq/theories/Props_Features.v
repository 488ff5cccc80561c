(** Props_Features.v -- builds with [disable_*] cargo features (C46). *)
From Verif Require Import Base Errors Types StateOps Env Wire Instance Commands X509 X509Cert Response Features Validation
  Lib Spec Exec Effects Steps Codec WireSpec History Reach Toy ToyX509 FeatureProofs Props_Commands.
Open Scope N_scope.

(** ** C46: leaving a feature out of the build is the same as not supporting it *)

(** A new instance supports what was asked for and is built in, and nothing else. *)
Theorem C46_support :
  forall d cf sup fl i,
    supports (gated_state_new d cf sup fl) i <-> N.testbit sup i = true /\ N.testbit d i = false.
Proof.
  intros d cf sup fl i. unfold supports, gated_state_new, gated_support, state_new, preprocess_support. cbn [st_support].
  rewrite N.ldiff_spec, andb_true_iff, negb_true_iff. reflexivity.
Qed.
Print Assumptions C46_support.

(** One command, in every well-formed state that supports nothing left out of the
    build: both builds give the same result and leave the same world behind. *)
Theorem C46_commands :
  forall d cf C P (co : crypto_ops C) (po : platform_ops P) cmd loc w,
    wf cf (w_st w) -> (forall i, supports (w_st w) i -> N.testbit d i = false) ->
    gated_command d cf C P co po cmd loc w = exec_command cf C P co po (x509_gen cf C P co po) cmd loc w.
Proof. intros. apply gated_command_eq; assumption. Qed.
Print Assumptions C46_commands.

(** All sequences of requests (arbitrary bytes) to a new instance: the two builds go
    through the same states and give the same answers, except that a request for
    RotateContextHandle is refused in different words when that is left out. *)
Theorem C46_requests :
  forall d cf C P (co : crypto_ops C) (po : platform_ops P) sup fl c p out l,
    config_ok cf -> Forall (fun q => u32 (fst q) /\ all_bytes (snd q)) l ->
    let w := mkWorld (gated_state_new d cf sup fl) c p out in
    exists gs fs w',
      serve C P (gated_serialized d cf C P co po) l w = (gs, w') /\
      serve C P (execute_serialized_command cf C P co po (x509_gen cf C P co po)) l w = (fs, w') /\
      length gs = length l /\ length fs = length l /\
      forall i q g f, nth_error l i = Some q -> nth_error gs i = Some g -> nth_error fs i = Some f ->
        g = f \/
        (N.testbit d 27 = true /\ good_header cf (snd q) 14 /\ g = Err InvalidCommand /\
         (f = Err InvalidArgument \/
          f = Ok (RespError {| rh_magic := 0x44504552; rh_status := 2; rh_profile := prof cf |}))).
Proof.
  intros d cf C P co po sup fl c p out l Hcf F w.
  exact (serve_alike d cf Hcf C P co po l w F (wf_new cf _ fl) (new_nothing_disabled d cf sup fl)).
Qed.
Print Assumptions C46_requests.

(** A build without rotation and internal info: a derivation that asks for internal
    info is refused by both, a rotation is refused in different words, and a signature
    is the same. *)
Definition left_out : N := 2 ^ 27 + 2 ^ 22.
Definition f_requests : list (N * bytes) :=
  map (fun c => (0, serialize_command toy_cf c))
    [init_default; derive H0 (2 ^ 31) 1; CmdRotateCtx H0 0; derive H0 (2 ^ 28) 1; sign H0].
Definition statuses (rs : list (result response)) : list (result N) :=
  map (fun r => match r with
                | Ok x => Ok (le_val (firstn 4 (skipn 4 (response_bytes x))))
                | Err e => Err e
                | Crash k => Crash k
                end) rs.
Definition f_start : world toy_c unit := mkWorld (gated_state_new left_out toy_cf all_features 0) toy_c0 tt [].
Example C46_case :
  config_ok toy_cf /\ Forall (fun q => u32 (fst q) /\ all_bytes (snd q)) f_requests /\
  statuses (fst (serve toy_c unit (gated_serialized left_out toy_cf toy_c unit xc xp) f_requests f_start))
    = [Ok 0; Ok 0x83; Err InvalidCommand; Ok 0; Ok 0] /\
  statuses (fst (serve toy_c unit (execute_serialized_command toy_cf toy_c unit xc xp (x509_gen toy_cf toy_c unit xc xp)) f_requests f_start))
    = [Ok 0; Ok 0x83; Ok 2; Ok 0; Ok 0].
Proof.
  split; [exact toy_cf_ok|]. split; [|split; vm_compute; reflexivity].
  assert (E : forallb (fun q => (fst q <? 2 ^ 32) && forallb (fun b => b <? 256) (snd q))%bool f_requests = true) by (vm_compute; reflexivity).
  apply Forall_forall. intros q Hq. pose proof (proj1 (forallb_forall _ _) E q Hq) as K. apply andb_true_iff in K as [K1 K2].
  split; [exact (proj1 (N.ltb_lt _ _) K1)|]. apply Forall_forall. intros b Hb. exact (proj1 (N.ltb_lt _ _) (proj1 (forallb_forall _ _) K2 b Hb)).
Qed.

(** The hypothesis on the state is needed, and nothing establishes it for a state that
    was not created by the running build: a state reached by the default build, with a
    context that uses internal info, is accepted by the validator, but a build with
    disable_internal_info signs with another key for the same context. *)
Theorem C46_carried_over_refuted :
  exists d cf C P (co : crypto_ops C) (po : platform_ops P) cmd loc w n wg wf,
    config_ok cf /\ reachable cf (w_st w) /\ command_wf cf cmd /\ validate_dpe cf (w_st w) = Ok tt /\
    gated_command d cf C P co po cmd loc w = (Ok n, wg) /\
    exec_command cf C P co po (x509_gen cf C P co po) cmd loc w = (Ok n, wf) /\
    w_st wg = w_st wf /\ w_out wg <> w_out wf.
Proof.
  pose (w := x_run [(init_default, 0); (derive H0 (2 ^ 31 + 2 ^ 28) 1, 0)]).
  exists (2 ^ 22), toy_cf, toy_c, unit, xc, xp, (sign H0), 0, w, 92,
    (snd (gated_command (2 ^ 22) toy_cf toy_c unit xc xp (sign H0) 0 w)), (snd (x_exec (sign H0) 0 w)).
  split; [exact toy_cf_ok|]. split; [apply x_reachable; toy_wf|].
  split; [repeat split; repeat constructor|]. split; [vm_compute; reflexivity|].
  split; [vm_compute; reflexivity|]. split; [vm_compute; reflexivity|].
  split; [vm_compute; reflexivity|]. intros X. vm_compute in X. discriminate X.
Qed.
Print Assumptions C46_carried_over_refuted.

(** What still holds for every state carried over, whatever it supports: a build never does
    what it left out.  It refuses the command as not supported (RotateContextHandle: as
    unknown) or exactly as the default build does, and changes nothing. *)
Definition without (d : N) (cmd : command) : Prop :=
  match cmd with
  | CmdDeriveContext dc =>
      N.testbit (dc_flags dc) 24 = true /\ N.testbit d 30 = true \/
      N.testbit (dc_flags dc) 23 = true /\ N.testbit (dc_flags dc) 24 = false /\ N.testbit d 18 = true
  | CmdCertifyKey (CertifyP256 c) | CmdCertifyKey (CertifyP384 c) | CmdCertifyKey (CertifyMldsa87 c) =>
      ck_format c = 0 /\ N.testbit d 26 = true \/ ck_format c = 1 /\ N.testbit d 25 = true
  | CmdRotateCtx _ _ => N.testbit d 27 = true
  | _ => False
  end.
Lemma both {C P A B} (m : M C P A) (f g : A -> M C P B) w r w' : bind m f w = (r, w') ->
  (exists a w1, m w = (Ok a, w1) /\ f a w1 = (r, w') /\ bind m g w = g a w1) \/
  (forall n, r <> Ok n) /\ bind m g w = (r, w') /\ (exists r0, m w = (r0, w')).
Proof.
  unfold bind. intros H. destruct (m w) as [[a|e|k] w1]; [left; eauto 6|right|right]; injection H as <- <-; (split; [discriminate|]); eauto.
Qed.
Ltac sofar := (split; [first [reflexivity|assumption]|split; [first [reflexivity|assumption]|split; [discriminate|first [left; reflexivity|right; reflexivity]]]]).
Theorem C46_left_out :
  forall d cf C P (co : crypto_ops C) (po : platform_ops P) cmd loc w r w',
    without d cmd -> gated_command d cf C P co po cmd loc w = (r, w') ->
    w_st w' = w_st w /\ w_out w' = w_out w /\ (forall n, r <> Ok n) /\
    (r = Err (match cmd with CmdRotateCtx _ _ => InvalidCommand | _ => ArgumentNotSupported end) \/
     exec_command cf C P co po (x509_gen cf C P co po) cmd loc w = (r, w')).
Proof.
  intros d cf C P co po cmd loc w r w' L H. destruct cmd as [|f|c|c|c|h f|h|o z|u]; cbn [without] in L; try contradiction; cbn [gated_command exec_command] in *.
  - unfold gated_derive in H. unfold exec_derive. rewrite bind_get_st in H. rewrite bind_get_st.
    destruct (derive_unsupported _ _); [apply fail_inv in H as [-> ->]; sofar|].
    eapply both in H as [([pc parent] & w1 & E & H & ->)|(X & -> & r0 & Y)]; [|apply lift_inv in Y as [_ ->]; auto].
    apply lift_inv in E as [_ ->].
    destruct (derive_bad_args pc (dc_flags c)) eqn:BA; [apply fail_inv in H as [-> ->]; sofar|].
    assert (E24 : df_recursive (dc_flags c) = N.testbit (dc_flags c) 24) by apply contains_bit.
    assert (E23 : df_export_cdi (dc_flags c) = N.testbit (dc_flags c) 23) by apply contains_bit.
    rewrite E24 in *. destruct (N.testbit (dc_flags c) 24) eqn:F24.
    + destruct L as [[_ L]|(_ & X & _)]; [|discriminate]. rewrite L in H. apply fail_inv in H as [-> ->]. sofar.
    + destruct L as [[X _]|(F23 & _ & L)]; [discriminate|]. rewrite F23 in E23.
      assert (CC : df_create_cert (dc_flags c) = true).
      { destruct (df_create_cert (dc_flags c)) eqn:Z; [reflexivity|]. unfold derive_bad_args in BA. rewrite E23, Z in BA. cbn [negb andb] in BA.
        rewrite orb_true_r in BA. cbn [orb] in BA. discriminate. }
      eapply both in H as [(u & w1 & E & H & ->)|(X & -> & r0 & Y)]; [|apply lift_inv in Y as [_ ->]; auto].
      apply lift_inv in E as [_ ->].
      destruct (negb u); [apply fail_inv in H as [-> ->]; sofar|].
      eapply both in H as [(pc1 & w1 & E & H & ->)|(X & -> & r0 & Y)];
        [|unfold st_get in Y; rewrite bind_get_st in Y; apply lift_inv in Y as [_ ->]; auto].
      unfold st_get in E. rewrite bind_get_st in E. apply lift_inv in E as [_ ->].
      eapply both in H as [(tp & w1 & E & H & ->)|(X & -> & r0 & Y)]; [|apply derive_tmp_parent_inv in Y as [[Y1 Y2] _]; auto].
      apply derive_tmp_parent_inv in E as [[K1 K2] _].
      rewrite CC, E23 in H. cbn [andb] in H. rewrite L in H. apply fail_inv in H as [-> ->]. sofar.
  - assert (LC : ck_format (certify_inner c) = 0 /\ N.testbit d 26 = true \/ ck_format (certify_inner c) = 1 /\ N.testbit d 25 = true)
      by (destruct c; exact L). clear L.
    unfold gated_certify in H. unfold exec_certify. rewrite bind_get_st in H. rewrite bind_get_st.
    eapply both in H as [(idx & w1 & E & H & ->)|(X & -> & r0 & Y)]; [|apply lift_inv in Y as [_ ->]; auto].
    apply lift_inv in E as [_ ->].
    eapply both in H as [(pc1 & w1 & E & H & ->)|(X & -> & r0 & Y)];
      [|unfold st_get in Y; rewrite bind_get_st in Y; apply lift_inv in Y as [_ ->]; auto].
    unfold st_get in E. rewrite bind_get_st in E. apply lift_inv in E as [_ ->].
    destruct LC as [[EF L]|[EF L]]; rewrite EF in *; cbn [N.eqb Pos.eqb andb] in *; rewrite L in H;
      repeat (match type of H with (if ?b then _ else _) _ = _ => destruct b end;
              [apply fail_inv in H as [-> ->]; sofar|]);
      apply bind_fail_inv in H as [-> ->]; sofar.
  - rewrite L in H. apply fail_inv in H as [-> ->]. sofar.
Qed.
Print Assumptions C46_left_out.
(** A state that supports signing requests, carried over to a build without them. *)
Example C46_left_out_case :
  let w := x_run [(init_default, 0)] in
  supports (w_st w) 25 /\ without (2 ^ 25) (certify H0 1) /\ fst (x_exec (certify H0 1) 0 w) = Ok 816 /\
  fst (gated_command (2 ^ 25) toy_cf toy_c unit xc xp (certify H0 1) 0 w) = Err ArgumentNotSupported.
Proof. split; [reflexivity|]. split; [right; split; reflexivity|]. split; vm_compute; reflexivity. Qed.
