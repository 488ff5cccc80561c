(** CfiProofs.v -- no control-flow-integrity assertion fails in the code as written,
    and which wrong decisions the assertions make harmless. *)
From Verif Require Import Base Errors Types StateOps Env Wire Instance Commands X509 X509Cert Response Cfi
  Lib Spec Exec Effects Steps.
Local Open Scope nat_scope.
Open Scope dpe_scope.

(** The decisions whose outcome is asserted on every way a wrong outcome leads. *)
Definition re_checked (s : site) : bool :=
  match s with
  | AtAutoSupport | AtRollParent | AtTciState | AtTciLocality | AtInitSupport | AtInitFlags | AtDeriveLocality
  | AtDeriveTciType | AtDeriveSafe | AtDeriveDefault | AtDestroyLocality | AtRotateSupport
  | AtRotateTarget | AtRotateFree | AtSignType | AtSignKey | AtCertifyFormat | AtCertifyX509
  | AtCertifyAllow | AtCertifyCsr | AtCertifyLocality | AtCertifyIsX509 | AtCertifyIsCsr
  | AtCertKey => true
  | _ => false
  end.

(** ** The code as written *)
Section Same.
  Variable cf : config.
  Variables C P : Type.
  Variable co : crypto_ops C.
  Variable po : platform_ops P.

  Lemma bind_ext {A B} (m m' : M C P A) (g g' : A -> M C P B) w :
    m w = m' w -> (forall a w', g a w' = g' a w') -> bind m g w = bind m' g' w.
  Proof. intros H K. unfold bind. rewrite H. destruct (m' w) as [[a|e|k] w']; auto. Qed.

  Lemma same_retired n s : forall p acc,
    checked_retired no_fault cf n s p acc = collect_retired cf n s p acc.
  Proof.
    induction n as [|n IH]; intros p acc; [reflexivity|]. cbn [checked_retired collect_retired].
    destruct (Nat.eqb p ROOT); [reflexivity|]. destruct (ok_or _ _) as [pc|e|k]; cbn [rbind]; try reflexivity.
    unfold goes, no_fault. destruct (ctx_state_eqb (c_state pc) Retired), (Nat.eqb _ 1); cbn [andb orb negb rassert]; try reflexivity.
    destruct (children_add cf acc p); cbn [rbind]; try reflexivity. apply IH.
  Qed.

  Lemma same_slots td l : checked_slots no_fault cf td l = Ok (map (destroy_slot cf td) l).
  Proof.
    induction l as [|[i c] l IH]; [reflexivity|]. cbn [checked_slots map fst snd].
    unfold goes, no_fault. unfold destroy_slot at 1. cbn [fst snd].
    destruct (has_child cf td i); cbn [Bool.eqb rassert rbind]; fold no_fault; rewrite IH; reflexivity.
  Qed.

  Lemma same_destroy_context h s loc :
    checked_destroy_context no_fault cf h s loc = destroy_context cf h s loc.
  Proof.
    unfold checked_destroy_context, destroy_context. destruct (get_active_context_and_idx s h loc) as [[c i]|e|k]; cbn [rbind]; try reflexivity.
    change (goes no_fault AtDestroyLocality) with (fun b : bool => b). cbv beta.
    destruct (N.eqb (c_locality c) loc); cbn [negb rassert]; [|reflexivity].
    rewrite same_retired. destruct (collect_retired _ _ _ _ _); cbn [rbind]; try reflexivity.
    destruct (get_descendants _ _ _ _); cbn [rbind]; try reflexivity.
    destruct (children_add _ _ _); cbn [rbind]; try reflexivity.
    rewrite same_slots. reflexivity.
  Qed.

  Lemma same_roll s c w : checked_roll no_fault C P co s c w = roll_handle C P co c w.
  Proof.
    unfold checked_roll, roll_handle. change (goes no_fault s) with (fun b : bool => b). cbv beta.
    destruct (handle_is_default (c_handle c)); reflexivity.
  Qed.

  Lemma same_measurement c m l w :
    checked_measurement no_fault C P co c m l w = add_tci_measurement C P co c m l w.
  Proof.
    unfold checked_measurement, add_tci_measurement.
    change (goes no_fault AtTciState) with (fun b : bool => b). change (goes no_fault AtTciLocality) with (fun b : bool => b). cbv beta.
    destruct (ctx_state_eqb _ _); [|reflexivity]. destruct (N.eqb _ _); reflexivity.
  Qed.

  Lemma same_init fl loc w : checked_init no_fault cf C P co fl loc w = exec_init cf C P co fl loc w.
  Proof.
    unfold checked_init, exec_init. rewrite !bind_get_st.
    change (goes no_fault AtInitSupport) with (fun b : bool => b). change (goes no_fault AtInitFlags) with (fun b : bool => b).
    change (goes no_fault AtInitKind) with (fun b : bool => b). cbv beta.
    destruct (if_default fl), (if_simulation fl), (st_init (w_st w)), (sup_simulation (st_support (w_st w))); reflexivity.
  Qed.

  Lemma same_recursive c p t w :
    checked_recursive no_fault cf C P co c p t w = derive_recursive cf C P co c p t w.
  Proof.
    unfold checked_recursive, derive_recursive. apply bind_ext; [reflexivity|]. intros tmp w1.
    change (goes no_fault AtDeriveTciType) with (fun b : bool => b). cbv beta.
    destruct (N.eqb _ _); [|reflexivity]. cbn [negb]. unfold assert, rassert. 
    change (bind (lift (Ok tt)) ?g w1) with (g tt w1). cbv beta.
    apply bind_ext; [apply same_measurement|]. intros tmp2 w2. apply bind_ext; [apply same_roll|]. reflexivity.
  Qed.

  Lemma same_tmp_parent fl pc w :
    checked_tmp_parent no_fault C P co fl pc w = derive_tmp_parent C P co fl pc w.
  Proof.
    unfold checked_tmp_parent, derive_tmp_parent.
    change (goes no_fault AtDeriveRetain) with (fun b : bool => b). change (goes no_fault AtDeriveRefresh) with (fun b : bool => b). cbv beta.
    destruct (df_retain_parent fl), (handle_is_default (c_handle pc)); reflexivity.
  Qed.

  Lemma same_look {A B} s (g : C -> (A + crypto_error) * C) (k : A -> M C P B) w :
    bind (attempt C P g) (fun r => bind (look no_fault C P s r) k) w = bind (crypto g) k w.
  Proof.
    unfold bind at 1, attempt, bind at 2, crypto. destruct (g (w_c w)) as [[a|e] c]; reflexivity.
  Qed.

  Lemma same_subject_key k a d w :
    checked_subject_key no_fault C P co k a d w = derive_subject_key C P co k a d w.
  Proof.
    unfold checked_subject_key, derive_subject_key. destruct (kind_exported k); [|apply same_look].
    apply bind_ext; [reflexivity|]. intros h w1. apply bind_ext; [reflexivity|]. intros u w2. apply same_look.
  Qed.

  Lemma same_create k a off w :
    checked_create_cert no_fault cf C P co po k a off w = create_cert cf C P co po k a off w.
  Proof.
    unfold checked_create_cert, create_cert. apply bind_ext; [reflexivity|]. intros s w1.
    apply bind_ext; [reflexivity|]. intros i w2. apply bind_ext; [reflexivity|]. intros d w3.
    apply bind_ext; [apply same_subject_key|]. reflexivity.
  Qed.

  Lemma same_run k a off w :
    run_cert C P (checked_gen no_fault cf C P co po) k a off w = run_cert C P (x509_gen cf C P co po) k a off w.
  Proof. unfold run_cert, checked_gen, x509_gen. rewrite same_create. reflexivity. Qed.

  Lemma same_export c p tp loc w :
    checked_export no_fault cf C P co po c p tp loc w = derive_export cf C P po (x509_gen cf C P co po) c p tp loc w.
  Proof.
    unfold checked_export, derive_export. do 3 (apply bind_ext; [reflexivity|]; intros ? ?).
    apply bind_ext; [apply same_run|]. intros r w1. apply bind_ext; [reflexivity|]. intros pc w2.
    change (goes no_fault AtExportDestroy) with (fun b : bool => b). cbv beta.
    apply bind_ext; [|reflexivity]. destruct (negb pc); [|reflexivity].
    apply bind_ext; [reflexivity|]. intros s w3. rewrite same_destroy_context. reflexivity.
  Qed.

  Lemma same_child c p tp t w :
    checked_child no_fault cf C P co c p tp t w = derive_child cf C P co c p tp t w.
  Proof.
    unfold checked_child, derive_child. do 2 (apply bind_ext; [reflexivity|]; intros ? ?).
    change (goes no_fault AtDeriveSafe) with (fun b : bool => b). change (goes no_fault AtDeriveDefault) with (fun b : bool => b). cbv beta.
    destruct (safe_to_make_child a (dc_flags c) p t); [|reflexivity]. cbn [negb]. unfold assert, rassert.
    change (bind (lift (Ok tt)) ?g w'0) with (g tt w'0). cbv beta.
    apply bind_ext; [destruct (df_make_default _); reflexivity|]. intros h w2.
    apply bind_ext; [reflexivity|]. intros pc w3. apply bind_ext; [apply same_measurement|]. reflexivity.
  Qed.

  Lemma asserts {B} b (k : M C P B) w : b = true -> (assert C P b ;; k) w = k w.
  Proof. intros ->. reflexivity. Qed.

  Lemma same_derive c loc w :
    checked_derive no_fault cf C P co po c loc w = exec_derive cf C P co po (x509_gen cf C P co po) c loc w.
  Proof.
    unfold checked_derive, exec_derive. rewrite !bind_get_st.
    change (goes no_fault AtDeriveSupport) with (fun b : bool => b). change (goes no_fault AtDeriveArgs) with (fun b : bool => b).
    change (goes no_fault AtDeriveLocality) with (fun b : bool => b). change (goes no_fault AtDeriveRecursive) with (fun b : bool => b).
    change (goes no_fault AtDeriveUnique) with (fun b : bool => b). change (goes no_fault AtDeriveExport) with (fun b : bool => b). cbv beta.
    destruct (derive_unsupported _ _) eqn:U; [reflexivity|]. apply bind_ext; [reflexivity|]. intros [pc p] w1.
    destruct (derive_bad_args pc (dc_flags c)) eqn:G; [reflexivity|].
    set (t := if df_change_locality (dc_flags c) then dc_target_locality c else loc).
    match goal with |- bind _ ?k w1 = _ => transitivity (k t w1) end.
    { unfold t. destruct (df_change_locality _); reflexivity. }
    cbv beta. unfold derive_unsupported in U. unfold derive_bad_args in G. apply orb_false_iff in U as [U _]. apply orb_false_iff in U as [U _].
    repeat match goal with H : (_ || _)%bool = false |- _ => apply orb_false_iff in H as [? ?] end.
    rewrite !asserts.
    2-7: repeat match goal with H : (_ && _)%bool = false |- _ => revert H end; clear;
      repeat match goal with |- context [negb ?x] => destruct x; cbn [negb andb orb]; try reflexivity end; intros; congruence.
    destruct (df_recursive (dc_flags c)); [apply same_recursive|].
    apply bind_ext; [reflexivity|]. intros u w2. destruct (negb u); [reflexivity|].
    apply bind_ext; [reflexivity|]. intros pc2 w3. apply bind_ext; [apply same_tmp_parent|]. intros tp w4.
    destruct (df_create_cert (dc_flags c) && df_export_cdi (dc_flags c))%bool; [apply same_export|apply same_child].
  Qed.

  Lemma same_destroy h loc w : checked_destroy no_fault cf C P h loc w = exec_destroy cf C P h loc w.
  Proof. unfold checked_destroy, exec_destroy. rewrite !bind_get_st, same_destroy_context. reflexivity. Qed.

  Lemma same_rotate h fl loc w : checked_rotate no_fault cf C P co h fl loc w = exec_rotate cf C P co h fl loc w.
  Proof.
    unfold checked_rotate, exec_rotate. rewrite !bind_get_st.
    change (goes no_fault AtRotateSupport) with (fun b : bool => b). change (goes no_fault AtRotateTarget) with (fun b : bool => b).
    change (goes no_fault AtRotateFree) with (fun b : bool => b). change (goes no_fault AtRotateKind) with (fun b : bool => b). cbv beta.
    destruct (sup_rotate _) eqn:S; [|reflexivity]. cbn [negb]. rewrite asserts by reflexivity.
    apply bind_ext; [reflexivity|]. intros i w1. destruct (rf_target_default fl); cbn [andb negb]; [|apply asserts; reflexivity].
    destruct (is_ok _), (other_non_default _ _ _); reflexivity.
  Qed.

  Lemma same_update c loc w : checked_update no_fault cf C P co c loc w = exec_update cf C P co c loc w.
  Proof.
    unfold checked_update, exec_update. change (goes no_fault AtUpdateHandle) with (fun b : bool => b). cbv beta.
    destruct (handle_is_default _); [reflexivity|]. do 5 (apply bind_ext; [reflexivity|]; intros ? ?).
    apply bind_ext; [apply same_measurement|]. intros tc w1. apply bind_ext; [reflexivity|]. intros tp w2.
    apply bind_ext; [apply same_roll|]. intros tp2 w3. apply bind_ext; [reflexivity|]. intros u w4.
    apply bind_ext; [apply same_roll|]. reflexivity.
  Qed.

  Lemma same_do_sign i l d w : checked_do_sign no_fault cf C P co po i l d w = do_sign cf C P co po i l d w.
  Proof.
    unfold checked_do_sign, do_sign. do 2 (apply bind_ext; [reflexivity|]; intros ? ?). apply same_look.
  Qed.

  Lemma same_sign c loc w : checked_sign no_fault cf C P co po c loc w = exec_sign cf C P co po c loc w.
  Proof.
    unfold checked_sign, exec_sign. apply bind_ext; [reflexivity|]. intros [[h l] d] w1.
    do 3 (apply bind_ext; [reflexivity|]; intros ? ?). change (goes no_fault AtSignType) with (fun b : bool => b). cbv beta.
    destruct (ctx_type_eqb _ _); [reflexivity|]. cbn [negb]. rewrite asserts by reflexivity.
    apply bind_ext; [apply same_do_sign|]. intros sg w2. destruct (signature_bytes cf sg); [|reflexivity].
    apply bind_ext; [reflexivity|]. intros x w3. apply bind_ext; [apply same_roll|]. reflexivity.
  Qed.

  Lemma same_certify cmd loc w :
    checked_certify no_fault cf C P co po cmd loc w = exec_certify cf C P co (x509_gen cf C P co po) cmd loc w.
  Proof.
    unfold checked_certify, exec_certify. rewrite !bind_get_st. apply bind_ext; [reflexivity|]. intros i w1.
    apply bind_ext; [reflexivity|]. intros ctx w2. set (c := certify_inner cmd).
    change (goes no_fault AtCertifyFormat) with (fun b : bool => b). change (goes no_fault AtCertifyX509) with (fun b : bool => b).
    change (goes no_fault AtCertifyAllow) with (fun b : bool => b). change (goes no_fault AtCertifyCsr) with (fun b : bool => b).
    change (goes no_fault AtCertifyLocality) with (fun b : bool => b). change (goes no_fault AtCertifyIsX509) with (fun b : bool => b).
    change (goes no_fault AtCertifyIsCsr) with (fun b : bool => b). cbv beta.
    destruct (N.eqb (ck_format c) 0) eqn:X; cbn [andb negb orb].
    - replace (N.eqb (ck_format c) 1) with false by (apply N.eqb_eq in X; rewrite X; reflexivity). cbn [andb negb orb].
      destruct (sup_x509 _); cbn [negb]; [|reflexivity]. destruct (c_x509 ctx); cbn [negb]; [|reflexivity].
      rewrite bind_ret. destruct (N.eqb (c_locality ctx) loc); cbn [negb]; [|reflexivity]. rewrite !asserts by reflexivity.
      apply bind_ext; [rewrite asserts by reflexivity; apply same_run|]. intros r w3.
      apply bind_ext; [reflexivity|]. intros x w4. apply bind_ext; [apply same_roll|]. reflexivity.
    - destruct (N.eqb (ck_format c) 1); cbn [andb negb orb].
      + destruct (sup_csr _); cbn [negb]; [|reflexivity]. rewrite bind_ret.
        destruct (N.eqb (c_locality ctx) loc); cbn [negb]; [|reflexivity]. rewrite !asserts by reflexivity.
        apply bind_ext; [rewrite asserts by reflexivity; apply same_run|]. intros r w3.
        apply bind_ext; [reflexivity|]. intros x w4. apply bind_ext; [apply same_roll|]. reflexivity.
      + rewrite bind_ret. destruct (N.eqb (c_locality ctx) loc); cbn [negb]; [|reflexivity]. rewrite !asserts by reflexivity. reflexivity.
  Qed.

  Theorem same_command cmd loc w :
    checked_command no_fault cf C P co po cmd loc w = exec_command cf C P co po (x509_gen cf C P co po) cmd loc w.
  Proof.
    destruct cmd; cbn [checked_command exec_command]; try reflexivity.
    - apply same_init.
    - apply same_derive.
    - apply same_certify.
    - apply same_sign.
    - apply same_rotate.
    - apply same_destroy.
    - apply same_update.
  Qed.

  Theorem same_new w : checked_new no_fault cf C P co po w = dpe_new cf C P co po w.
  Proof.
    unfold checked_new, dpe_new. rewrite !bind_get_st. change (goes no_fault AtNewAuto) with (fun b : bool => b). cbv beta.
    destruct (sup_auto_init _); [|reflexivity]. apply bind_ext; [reflexivity|]. intros l w1.
    apply bind_ext; [|reflexivity]. unfold with_out. rewrite same_init. reflexivity.
  Qed.

  Theorem same_new_auto ty m w :
    checked_new_auto_init no_fault cf C P co po ty m w = dpe_new_auto_init cf C P co po ty m w.
  Proof.
    unfold checked_new_auto_init, dpe_new_auto_init. rewrite !bind_get_st. change (goes no_fault AtAutoSupport) with (fun b : bool => b). cbv beta.
    destruct (sup_auto_init _); [|reflexivity]. cbn [negb]. rewrite asserts by reflexivity.
    apply bind_ext; [apply same_new|]. intros u w1. do 4 (apply bind_ext; [reflexivity|]; intros ? ?).
    apply bind_ext; [apply same_measurement|]. reflexivity.
  Qed.

  Theorem same_serialized loc b w :
    checked_serialized no_fault cf C P co po loc b w =
    execute_serialized_command cf C P co po (x509_gen cf C P co po) loc b w.
  Proof.
    unfold checked_serialized, execute_serialized_command. apply bind_ext; [reflexivity|]. intros cmd w1.
    replace (checked_execute no_fault cf C P co po cmd loc w1)
       with (execute cf C P co po (x509_gen cf C P co po) cmd loc w1); [reflexivity|].
    unfold checked_execute, execute, with_out. apply bind_ext; [|reflexivity]. rewrite same_command. reflexivity.
  Qed.
End Same.

(** ** Wrong decisions *)

(** The command ended early: an assertion failed or an error was returned, and the
    DPE state is as before. *)
Definition stopped {C P A} (w : world C P) (x : result A * world C P) : Prop :=
  w_st (snd x) = w_st w /\ (fst x = Crash CrashAssert \/ exists e, fst x = Err e).

Section Faults.
  Variable f : faults.
  Hypothesis Hf : forall s, re_checked s = false -> f s = false.
  Variable cf : config.
  Variables C P : Type.
  Variable co : crypto_ops C.
  Variable po : platform_ops P.

  Definition fine {A} (m m0 : M C P A) : Prop := forall w, stopped w (m w) \/ m w = m0 w.
  Definition stops {A} (m : M C P A) : Prop := forall w, stopped w (m w).

  Lemma goes_off s b : re_checked s = false -> goes f s b = b.
  Proof. intros H. unfold goes. rewrite (Hf s H). reflexivity. Qed.

  Lemma fine_eq {A} (m m0 : M C P A) : (forall w, m w = m0 w) -> fine m m0.
  Proof. intros H w. right. apply H. Qed.
  Lemma fine_refl {A} (m : M C P A) : fine m m.
  Proof. apply fine_eq. reflexivity. Qed.
  Lemma fine_stops {A} (m m0 : M C P A) : stops m -> fine m m0.
  Proof. intros H w. left. apply H. Qed.

  Lemma fine_bind {A B} (m m0 : M C P A) (k k0 : A -> M C P B) :
    fine m m0 -> keeps m0 -> (forall a, fine (k a) (k0 a)) -> fine (bind m k) (bind m0 k0).
  Proof.
    intros H K G w. unfold bind. destruct (H w) as [[S E]|E].
    - left. destruct (m w) as [r w1]. cbn [fst snd] in S, E.
      destruct r as [a|e|x]; [exfalso; destruct E as [E|[e E]]; discriminate| |]; split; cbn [fst snd]; auto.
      + right. eauto.
      + destruct E as [E|[e E]]; [left; congruence|discriminate].
    - rewrite E. destruct (m0 w) as [r w1] eqn:E0. apply K in E0 as [E0 _].
      destruct r as [a|e|x]; [|right; reflexivity..].
      destruct (G a w1) as [[S X]|X]; [left|right; exact X]. split; [congruence|exact X].
  Qed.
  Lemma fine_bind_eq {A B} (m m0 : M C P A) (k k0 : A -> M C P B) :
    fine m m0 -> (forall a w, k a w = k0 a w) -> fine (bind m k) (bind m0 k0).
  Proof.
    intros H G w. unfold bind. destruct (H w) as [[S E]|E].
    - left. destruct (m w) as [r w1]. cbn [fst snd] in S, E.
      destruct r as [a|e|x]; [exfalso; destruct E as [E|[e E]]; discriminate| |]; split; cbn [fst snd]; auto.
      + right. eauto.
      + destruct E as [E|[e E]]; [left; congruence|discriminate].
    - right. rewrite E. destruct (m0 w) as [[a|e|x] w1]; [apply G|reflexivity..].
  Qed.

  Lemma stops_fail {A} e : stops (@fail C P A e).
  Proof. intros w. split; [reflexivity|]. right. eexists. reflexivity. Qed.
  Lemma stops_assert {B} b (k : M C P B) : b = false \/ stops k -> stops (assert C P b ;; k).
  Proof.
    intros H w. destruct b; [|split; [reflexivity|left; reflexivity]]. destruct H as [H|H]; [discriminate|]. apply (H w).
  Qed.
  Lemma stops_if {A} (b : bool) (m m' : M C P A) : (b = true -> stops m) -> (b = false -> stops m') -> stops (if b then m else m').
  Proof. destruct b; auto. Qed.

  (** A refusal that is asserted again afterwards. *)
  Lemma fine_guard {A} s (g : bool) e (k k0 : M C P A) :
    (g = true -> stops k) -> (g = false -> fine k k0) ->
    fine (if goes f s g then fail e else k) (if g then fail e else k0).
  Proof.
    intros H1 H2. unfold goes. destruct (f s), g; cbn [negb].
    - apply fine_stops, H1. reflexivity.
    - apply fine_stops, stops_fail.
    - apply fine_refl.
    - apply H2. reflexivity.
  Qed.

  Lemma fine_measurement c m l :
    fine (checked_measurement f C P co c m l) (add_tci_measurement C P co c m l).
  Proof.
    unfold checked_measurement, add_tci_measurement. apply fine_guard.
    - intros G. apply stops_if; intros _; [apply stops_fail|]. apply stops_assert. left. apply negb_true_iff. exact G.
    - intros G. apply negb_false_iff in G. rewrite G. apply fine_guard.
      + intros X. apply stops_assert. right. apply stops_assert. left. apply negb_true_iff. exact X.
      + intros X. apply negb_false_iff in X. rewrite X. apply fine_eq. reflexivity.
  Qed.

  Lemma roll_off s c w : re_checked s = false -> checked_roll f C P co s c w = roll_handle C P co c w.
  Proof.
    intros H. unfold checked_roll, roll_handle. rewrite goes_off by exact H.
    destruct (handle_is_default (c_handle c)); reflexivity.
  Qed.

  (** A decision on what was just read from the state. *)
  Lemma fine_get_st {A} (k k0 : state -> M C P A) : (forall s, fine (k s) (k0 s)) -> fine (bind get_st k) (bind get_st k0).
  Proof. intros H. apply fine_bind; [apply fine_refl|apply keeps_get_st|exact H]. Qed.

  Lemma fine_init fl loc : fine (checked_init f cf C P co fl loc) (exec_init cf C P co fl loc).
  Proof.
    unfold checked_init, exec_init. apply fine_get_st. intros s. apply fine_guard.
    - intros G. apply stops_if; intros _; [apply stops_fail|].
      destruct (if_default fl), (st_init s); cbn [andb orb negb] in G |- *;
        try (apply stops_assert; left; reflexivity).
      all: apply stops_assert; right; apply stops_assert; left.
      all: destruct (if_simulation fl), (sup_simulation (st_support s)); try discriminate; reflexivity.
    - intros G. apply fine_guard.
      + intros X. apply stops_assert. right. apply stops_assert. right. apply stops_assert. left. apply negb_true_iff. exact X.
      + intros X. apply fine_eq. intros w.
        rewrite !asserts. 2-4: destruct (if_default fl), (if_simulation fl), (st_init s), (sup_simulation (st_support s)); try discriminate; reflexivity.
        apply bind_ext; [reflexivity|]. intros i w1. rewrite goes_off by reflexivity. reflexivity.
  Qed.

  (** Results without a world. *)
  Definition rfine {A} (r r0 : result A) : Prop := r = Crash CrashAssert \/ (exists e, r = Err e) \/ r = r0.
  Lemma fine_lift {A} (r r0 : result A) : rfine r r0 -> fine (lift r) (lift r0).
  Proof.
    intros [->|[[e ->]| ->]] w; [left|left|right; reflexivity]; (split; [reflexivity|]).
    - left. reflexivity.
    - right. eexists. reflexivity.
  Qed.

  Lemma retired_off n s : forall p acc, checked_retired f cf n s p acc = collect_retired cf n s p acc.
  Proof.
    induction n as [|n IH]; intros p acc; [reflexivity|]. cbn [checked_retired collect_retired].
    destruct (Nat.eqb p ROOT); [reflexivity|]. destruct (ok_or _ _) as [pc|e|k]; cbn [rbind]; try reflexivity.
    rewrite goes_off by reflexivity. destruct (ctx_state_eqb (c_state pc) Retired), (Nat.eqb _ 1); cbn [andb orb negb rassert]; try reflexivity.
    destruct (children_add cf acc p); cbn [rbind]; try reflexivity. apply IH.
  Qed.

  Lemma slots_off td l : checked_slots f cf td l = Ok (map (destroy_slot cf td) l).
  Proof.
    induction l as [|[i c] l IH]; [reflexivity|]. cbn [checked_slots map fst snd].
    rewrite goes_off by reflexivity. unfold destroy_slot at 1. cbn [fst snd].
    destruct (has_child cf td i); cbn [Bool.eqb rassert rbind]; rewrite IH; reflexivity.
  Qed.

  Lemma fine_destroy_context h s loc : rfine (checked_destroy_context f cf h s loc) (destroy_context cf h s loc).
  Proof.
    unfold checked_destroy_context, destroy_context. destruct (get_active_context_and_idx s h loc) as [[c i]|e|k]; cbn [rbind].
    2,3: right; right; reflexivity.
    unfold goes. destruct (f AtDestroyLocality), (N.eqb (c_locality c) loc); cbn [negb rassert].
    - right. left. eauto.
    - left. reflexivity.
    - right. right. rewrite retired_off. destruct (collect_retired _ _ _ _ _); cbn [rbind]; try reflexivity.
      destruct (get_descendants _ _ _ _); cbn [rbind]; try reflexivity.
      destruct (children_add _ _ _); cbn [rbind]; try reflexivity. rewrite slots_off. reflexivity.
    - right. right. reflexivity.
  Qed.

  Lemma fine_destroy h loc : fine (checked_destroy f cf C P h loc) (exec_destroy cf C P h loc).
  Proof.
    unfold checked_destroy, exec_destroy. apply fine_get_st. intros s.
    apply fine_bind_eq; [apply fine_lift, fine_destroy_context|]. reflexivity.
  Qed.

  Lemma keeps_st_get i e : keeps (st_get C P i e).
  Proof. unfold st_get. apply keeps_bind; [apply keeps_get_st|intros; apply keeps_lift]. Qed.
  Lemma keeps_st_index i : keeps (st_index C P i).
  Proof. unfold st_index. apply keeps_bind; [apply keeps_get_st|intros; apply keeps_lift]. Qed.

  Lemma fine_recursive c p t : fine (checked_recursive f cf C P co c p t) (derive_recursive cf C P co c p t).
  Proof.
    unfold checked_recursive, derive_recursive. apply fine_bind; [apply fine_refl|apply keeps_st_get|]. intros tmp.
    apply fine_guard; intros G.
    - apply stops_assert. left. apply negb_true_iff. exact G.
    - apply negb_false_iff in G. rewrite G. intros w. rewrite asserts by reflexivity. revert w.
      apply fine_bind_eq; [apply fine_measurement|]. intros x w. apply bind_ext; [apply roll_off; reflexivity|]. reflexivity.
  Qed.

  Lemma tmp_parent_off fl pc w : checked_tmp_parent f C P co fl pc w = derive_tmp_parent C P co fl pc w.
  Proof.
    unfold checked_tmp_parent, derive_tmp_parent. rewrite !goes_off by reflexivity.
    destruct (df_retain_parent fl), (handle_is_default (c_handle pc)); reflexivity.
  Qed.

  Lemma fine_look {A B} s (g : C -> (A + crypto_error) * C) (k k0 : A -> M C P B) :
    (forall a, fine (k a) (k0 a)) ->
    fine (bind (attempt C P g) (fun r => bind (look f C P s r) k)) (bind (crypto g) k0).
  Proof.
    intros K w. destruct (g (w_c w)) as [r c] eqn:E. set (w1 := mkWorld (w_st w) c (w_p w) (w_out w)).
    assert (E1 : forall h : A + crypto_error -> M C P B, bind (attempt C P g) h w = h r w1).
    { intros h. unfold bind, attempt. rewrite E. reflexivity. }
    assert (E2 : bind (crypto g) k0 w = match r with inl a => k0 a w1 | inr e => (Err (CryptoErr e), w1) end).
    { unfold bind, crypto. rewrite E. destruct r; reflexivity. }
    rewrite E1, E2. clear E1 E2. unfold look, goes. destruct (f s).
    - left. destruct r as [a|e]; (split; [reflexivity|left; reflexivity]).
    - destruct r as [a|e]; [|right; reflexivity].
      change (stopped w (k a w1) \/ k a w1 = k0 a w1).
      destruct (K a w1) as [[S X]|X]; [left|right; exact X]. split; [exact S|exact X].
  Qed.

  Lemma fine_subject_key k a d : fine (checked_subject_key f C P co k a d) (derive_subject_key C P co k a d).
  Proof.
    unfold checked_subject_key, derive_subject_key. destruct (kind_exported k).
    - apply fine_bind; [apply fine_refl|apply keeps_crypto|]. intros h. apply fine_bind; [apply fine_refl|apply keeps_crypto|].
      intros u. apply fine_look. intros pk. apply fine_refl.
    - apply fine_look. intros pk. apply fine_refl.
  Qed.

  Lemma fine_create k a off : fine (checked_create_cert f cf C P co po k a off) (create_cert cf C P co po k a off).
  Proof.
    unfold checked_create_cert, create_cert. apply fine_get_st. intros s.
    apply fine_bind; [apply fine_refl|apply keeps_lift|]. intros i. apply fine_bind; [apply fine_refl|apply cmh_keeps|]. intros d.
    apply fine_bind_eq; [apply fine_subject_key|]. reflexivity.
  Qed.

  Lemma fine_run k a off : fine (run_cert C P (checked_gen f cf C P co po) k a off) (run_cert C P (x509_gen cf C P co po) k a off).
  Proof.
    intros w. unfold run_cert, checked_gen, x509_gen.
    destruct (fine_create k a off (mkWorld (w_st w) (w_c w) (w_p w) (w_out w))) as [[S X]|X].
    - left. destruct (checked_create_cert _ _ _ _ _ _ _ _ _ _) as [r w1]. split; [reflexivity|exact X].
    - right. rewrite X. reflexivity.
  Qed.

  Lemma keeps_st_run k a off w r w' :
    run_cert C P (x509_gen cf C P co po) k a off w = (r, w') -> w_st w' = w_st w.
  Proof. unfold run_cert. destruct (x509_gen _ _ _ _ _ _ _ _ _ _ _ _) as [[[r0 c] p] o]. intros H. injection H as _ <-. reflexivity. Qed.

  (** [fine_bind] when only the DPE state is kept. *)
  Lemma fine_bind_st {A B} (m m0 : M C P A) (k k0 : A -> M C P B) :
    fine m m0 -> (forall w r w', m0 w = (r, w') -> w_st w' = w_st w) -> (forall a, fine (k a) (k0 a)) ->
    fine (bind m k) (bind m0 k0).
  Proof.
    intros H K G w. unfold bind. destruct (H w) as [[S E]|E].
    - left. destruct (m w) as [r w1]. cbn [fst snd] in S, E.
      destruct r as [a|e|x]; [exfalso; destruct E as [E|[e E]]; discriminate| |]; split; cbn [fst snd]; auto.
      + right. eauto.
      + destruct E as [E|[e E]]; [left; congruence|discriminate].
    - rewrite E. destruct (m0 w) as [r w1] eqn:E0. apply K in E0.
      destruct r as [a|e|x]; [|right; reflexivity..].
      destruct (G a w1) as [[S X]|X]; [left|right; exact X]. split; [congruence|exact X].
  Qed.

  Lemma fine_export c p tp loc :
    fine (checked_export f cf C P co po c p tp loc) (derive_export cf C P po (x509_gen cf C P co po) c p tp loc).
  Proof.
    unfold checked_export, derive_export. apply fine_bind; [apply fine_refl|apply keeps_platform|]. intros u.
    apply fine_bind; [apply fine_refl|apply keeps_lift|]. intros ueid. apply fine_get_st. intros s.
    apply fine_bind_st; [apply fine_run|intros; eapply keeps_st_run; eassumption|]. intros r.
    apply fine_bind; [apply fine_refl| |].
    { destruct (negb _); [|apply keeps_ret]. apply keeps_bind; [apply keeps_st_get|intros; apply keeps_ret]. }
    intros pc. apply fine_bind_eq; [|reflexivity]. rewrite goes_off by reflexivity. destruct (negb pc); [|apply fine_refl].
    apply fine_get_st. intros s1. apply fine_bind_eq; [apply fine_lift, fine_destroy_context|]. reflexivity.
  Qed.

  Lemma fine_child c p tp t : fine (checked_child f cf C P co c p tp t) (derive_child cf C P co c p tp t).
  Proof.
    unfold checked_child, derive_child. apply fine_get_st. intros s. apply fine_bind; [apply fine_refl|apply keeps_lift|].
    intros ch. apply fine_guard; intros G.
    - apply stops_assert. left. apply negb_true_iff. exact G.
    - apply negb_false_iff in G. rewrite G. intros w. rewrite asserts by reflexivity. revert w.
      apply fine_bind.
      + unfold goes. destruct (f AtDeriveDefault), (df_make_default (dc_flags c)); cbn [negb].
        1,2: apply fine_stops; apply stops_assert; left; reflexivity.
        all: apply fine_eq; reflexivity.
      + apply keeps_if; [apply keeps_ret|apply generate_new_handle_keeps].
      + intros h. apply fine_bind; [apply fine_refl|apply keeps_st_get|]. intros pc.
        apply fine_bind_eq; [apply fine_measurement|]. reflexivity.
  Qed.

  Lemma fine_derive c loc :
    fine (checked_derive f cf C P co po c loc) (exec_derive cf C P co po (x509_gen cf C P co po) c loc).
  Proof.
    unfold checked_derive, exec_derive. apply fine_get_st. intros s. rewrite goes_off by reflexivity.
    destruct (derive_unsupported _ _) eqn:U; [apply fine_refl|].
    apply fine_bind; [apply fine_refl|apply keeps_lift|]. intros [pc p]. rewrite goes_off by reflexivity.
    destruct (derive_bad_args pc (dc_flags c)) eqn:G; [apply fine_refl|].
    unfold goes at 1. destruct (f AtDeriveLocality).
    { apply fine_stops. intros w. destruct (df_change_locality _); (split; [reflexivity|left; reflexivity]). }
    intros w.
    set (t := if df_change_locality (dc_flags c) then dc_target_locality c else loc).
    match goal with |- stopped w (bind ?a ?k w) \/ _ => assert (Q : bind a k w = k t w) end.
    { unfold t. destruct (df_change_locality _); reflexivity. }
    rewrite Q. clear Q. cbv beta. unfold derive_unsupported in U. unfold derive_bad_args in G.
    apply orb_false_iff in U as [U _]. apply orb_false_iff in U as [U _].
    repeat match goal with H : (_ || _)%bool = false |- _ => apply orb_false_iff in H as [? ?] end.
    rewrite !asserts.
    2-7: repeat match goal with H : (_ && _)%bool = false |- _ => revert H end; clear;
      repeat match goal with |- context [negb ?x] => destruct x; cbn [negb andb orb]; try reflexivity end; intros; congruence.
    rewrite goes_off by reflexivity. revert w.
    destruct (df_recursive (dc_flags c)); [apply fine_recursive|].
    apply fine_bind; [apply fine_refl|apply keeps_lift|]. intros u. rewrite goes_off by reflexivity.
    destruct (negb u); [apply fine_refl|].
    apply fine_bind; [apply fine_refl|apply keeps_st_get|]. intros pc2.
    apply fine_bind.
    - apply fine_eq. intros w. apply tmp_parent_off.
    - unfold derive_tmp_parent. keeps_auto. apply generate_new_handle_keeps.
    - intros tp. rewrite goes_off by reflexivity.
      destruct (df_create_cert (dc_flags c) && df_export_cdi (dc_flags c))%bool; [apply fine_export|apply fine_child].
  Qed.

  Lemma fine_rotate h fl loc : fine (checked_rotate f cf C P co h fl loc) (exec_rotate cf C P co h fl loc).
  Proof.
    unfold checked_rotate, exec_rotate. apply fine_get_st. intros s. apply fine_guard; intros G.
    - apply stops_assert. left. apply negb_true_iff. exact G.
    - apply negb_false_iff in G. rewrite G. intros w. rewrite asserts by reflexivity. revert w.
      apply fine_bind; [apply fine_refl|apply keeps_lift|]. intros i.
      set (taken := is_ok _). set (others := other_non_default s loc i).
      set (k := fun _ : unit => _). intros w.
      assert (K : k tt w = (let! nh := (if rf_target_default fl then ret default_handle else generate_new_handle C P co) in
         let! c := st_get C P i (InternalError ContextIndexOob) in
         st_set C P i (set_handle nh c) (InternalError ContextIndexOob) ;;
         respond C P (new_handle_resp_bytes cf nh)) w).
      { unfold k. rewrite goes_off by reflexivity. reflexivity. }
      unfold goes. destruct (f AtRotateTarget), (rf_target_default fl); cbn [negb andb].
      + left. split; [reflexivity|left; reflexivity].
      + destruct (f AtRotateFree), taken, others; cbn [negb andb orb]; try (left; split; [reflexivity|left; reflexivity]);
          try (left; split; [reflexivity|right; eexists; reflexivity]).
        right. exact K.
      + destruct (f AtRotateFree), taken, others; cbn [negb andb orb]; try (left; split; [reflexivity|left; reflexivity]);
          try (left; split; [reflexivity|right; eexists; reflexivity]).
        right. exact K.
      + right. exact K.
  Qed.

  (** One world at a time. *)
  Lemma fine_at {A B} (m m0 : M C P A) (k k0 : A -> M C P B) w :
    stopped w (m w) \/ m w = m0 w ->
    (forall a w', m0 w = (Ok a, w') -> w_st w' = w_st w /\ (stopped w' (k a w') \/ k a w' = k0 a w')) ->
    stopped w (bind m k w) \/ bind m k w = bind m0 k0 w.
  Proof.
    intros H G. unfold bind. destruct H as [[S E]|E].
    - left. destruct (m w) as [r w1]. cbn [fst snd] in S, E.
      destruct r as [a|e|x]; [exfalso; destruct E as [E|[e E]]; discriminate| |]; split; cbn [fst snd]; auto.
      + right. eauto.
      + destruct E as [E|[e E]]; [left; congruence|discriminate].
    - rewrite E. destruct (m0 w) as [[a|e|x] w1]; [|right; reflexivity..].
      destruct (G a w1 eq_refl) as [S [[S' X]|X]]; [left|right; exact X]. split; [congruence|exact X].
  Qed.

  Lemma fine_update c loc : fine (checked_update f cf C P co c loc) (exec_update cf C P co c loc).
  Proof.
    unfold checked_update, exec_update. rewrite goes_off by reflexivity. destruct (handle_is_default (uc_parent_handle c)) eqn:D; [apply fine_refl|].
    intros w. rewrite !bind_get_st. apply fine_at; [right; reflexivity|]. intros p w1 E. apply lift_inv in E as [E ->].
    assert (L : get_active_context_pos (w_st w) (uc_parent_handle c) loc = Ok p).
    { destruct (get_active_context_pos (w_st w) (uc_parent_handle c) loc); congruence. }
    clear E. apply lookup_ok in L as [(pc & Hp & _ & _ & Hh) _]. apply get_ctx_at in Hp. split; [reflexivity|].
    apply fine_at; [right; reflexivity|]. intros pc1 w1 E. apply st_get_inv in E as [-> _]. split; [reflexivity|].
    apply fine_at; [right; reflexivity|]. intros ch w1 E. apply lift_inv in E as [_ ->]. split; [reflexivity|].
    apply fine_at; [right; reflexivity|]. intros tc w1 E. apply st_get_inv in E as [-> _]. split; [reflexivity|].
    apply fine_at; [apply fine_measurement|]. intros tc2 w1 E. apply add_tci_keeps in E as [E _]. split; [exact E|].
    apply fine_at; [right; reflexivity|]. intros tp w2 E2. apply st_get_inv in E2 as [-> E2]. split; [reflexivity|].
    rewrite E, Hp in E2. cbn [ok_or] in E2. injection E2 as ->.
    destruct (f AtRollParent) eqn:F.
    { left. assert (R : checked_roll f C P co AtRollParent pc w1 = (Crash CrashAssert, w1)).
      { unfold checked_roll, goes. rewrite F, Hh, D. reflexivity. }
      unfold bind at 1. rewrite R. split; [reflexivity|left; reflexivity]. }
    assert (R : checked_roll f C P co AtRollParent pc w1 = roll_handle C P co pc w1).
    { unfold checked_roll, roll_handle, goes. rewrite F, Hh, D. reflexivity. }
    right. apply bind_ext; [exact R|]. intros tp w2. apply bind_ext; [reflexivity|]. intros u w3.
    apply bind_ext; [apply roll_off; reflexivity|]. reflexivity.
  Qed.

  Lemma fine_sign c loc : fine (checked_sign f cf C P co po c loc) (exec_sign cf C P co po c loc).
  Proof.
    unfold checked_sign, exec_sign. apply fine_bind; [apply fine_refl|apply keeps_lift|]. intros [[h l] d].
    apply fine_get_st. intros s. apply fine_bind; [apply fine_refl|apply keeps_lift|]. intros i.
    apply fine_bind; [apply fine_refl|apply keeps_st_get|]. intros ctx. apply fine_guard; intros G.
    - apply stops_assert. left. rewrite G. reflexivity.
    - rewrite G. intros w. rewrite asserts by reflexivity. revert w. apply fine_bind_eq.
      + unfold checked_do_sign, do_sign. apply fine_bind; [apply fine_refl|apply cmh_keeps|]. intros dg.
        apply fine_bind; [apply fine_refl|apply keeps_crypto|]. intros u. apply fine_look. intros v. apply fine_refl.
      + intros sg w. destruct (signature_bytes cf sg); [|reflexivity]. apply bind_ext; [reflexivity|]. intros x w1.
        apply bind_ext; [apply roll_off; reflexivity|]. reflexivity.
  Qed.

  Lemma fine_certify cmd loc :
    fine (checked_certify f cf C P co po cmd loc) (exec_certify cf C P co (x509_gen cf C P co po) cmd loc).
  Proof.
    unfold checked_certify, exec_certify. set (c := certify_inner cmd). apply fine_get_st. intros s.
    apply fine_bind; [apply fine_refl|apply keeps_lift|]. intros i.
    apply fine_bind; [apply fine_refl|apply keeps_st_get|]. intros ctx.
    set (args := Build_cert_args _ _ _ _ _ _ _).
    set (x509 := N.eqb (ck_format c) 0). set (csr := N.eqb (ck_format c) 1).
    assert (XC : x509 = true -> csr = false).
    { unfold x509, csr. intros X. apply N.eqb_eq in X. rewrite X. reflexivity. }
    clearbody x509 csr.
    set (k0 := (let! r := (if x509 then run_cert C P (x509_gen cf C P co po) KindX509 args (certify_hdr_size (certify_profile cmd))
                 else if csr then run_cert C P (x509_gen cf C P co po) KindCsr args (certify_hdr_size (certify_profile cmd))
                 else fail InvalidArgument) in
      let! ctx := st_index C P i in
      let! ctx := roll_handle C P co ctx in
      st_assign C P i ctx ;;
      match pubkey_bytes (certify_profile cmd) (cr_pubkey r) with
      | None => fail InvalidArgument
      | Some pk =>
          write_out 0 (certify_hdr_bytes cf (c_handle ctx) pk (cr_size r)) ;;
          ret (N.of_nat (certify_hdr_size (certify_profile cmd)) + cr_size r)%N
      end)).
    set (k := (if goes f AtCertifyLocality _ then _ else _)).
    assert (KS : (x509 && negb (sup_x509 (st_support s)) || x509 && negb (c_x509 ctx) || csr && negb (sup_csr (st_support s)) || negb (N.eqb (c_locality ctx) loc))%bool = true -> stops k).
    { intros B. unfold k. apply stops_if; intros _; [apply stops_fail|].
      destruct (negb x509 || sup_x509 (st_support s))%bool eqn:B1; [|apply stops_assert; left; reflexivity].
      apply stops_assert; right.
      destruct (negb x509 || c_x509 ctx)%bool eqn:B2; [|apply stops_assert; left; reflexivity].
      apply stops_assert; right.
      destruct (negb csr || sup_csr (st_support s))%bool eqn:B3; [|apply stops_assert; left; reflexivity].
      apply stops_assert; right. apply stops_assert; left.
      destruct x509, (sup_x509 (st_support s)), (c_x509 ctx), csr, (sup_csr (st_support s)), (N.eqb (c_locality ctx) loc); try discriminate; reflexivity. }
    assert (KF : (x509 && negb (sup_x509 (st_support s)) || x509 && negb (c_x509 ctx) || csr && negb (sup_csr (st_support s)) || negb (N.eqb (c_locality ctx) loc))%bool = false -> fine k k0).
    { intros B. apply orb_false_iff in B as [B B4]. apply orb_false_iff in B as [B B3]. apply orb_false_iff in B as [B1 B2].
      unfold k. intros w.
      assert (GL : goes f AtCertifyLocality (negb (N.eqb (c_locality ctx) loc)) = f AtCertifyLocality).
      { unfold goes. rewrite B4. destruct (f AtCertifyLocality); reflexivity. }
      rewrite GL. clear GL. destruct (f AtCertifyLocality).
      - left. split; [reflexivity|right; eexists; reflexivity].
      - apply negb_false_iff in B4. rewrite !asserts.
        2-5: first [exact B4 | destruct x509, (sup_x509 (st_support s)), (c_x509 ctx), csr, (sup_csr (st_support s)); try discriminate; reflexivity].
        unfold k0. refine (fine_bind_eq _ _ _ _ _ _ w); clear w.
        + unfold goes. destruct (f AtCertifyIsX509), x509; cbn [negb].
          * destruct (f AtCertifyIsCsr), csr; cbn [negb]; try (apply fine_stops; first [apply stops_fail | apply stops_assert; left; reflexivity]).
            discriminate (XC eq_refl).
          * apply fine_stops. apply stops_assert. left. reflexivity.
          * intros w. rewrite asserts by reflexivity. apply fine_run.
          * destruct (f AtCertifyIsCsr), csr; cbn [negb]; try (apply fine_stops; first [apply stops_fail | apply stops_assert; left; reflexivity]).
            intros w. rewrite asserts by reflexivity. apply fine_run.
        + intros r w. apply bind_ext; [reflexivity|]. intros x w1. apply bind_ext; [apply roll_off; reflexivity|]. reflexivity. }
    clearbody k k0.
    unfold goes. destruct (sup_x509 (st_support s)), (c_x509 ctx), (sup_csr (st_support s)), (N.eqb (c_locality ctx) loc), x509, csr;
      try discriminate (XC eq_refl); cbn [andb orb negb] in KS, KF |- *;
      destruct (f AtCertifyFormat), (f AtCertifyX509), (f AtCertifyAllow), (f AtCertifyCsr); cbn [negb];
      first [exact (KF eq_refl) | exact (fine_stops _ _ (KS eq_refl))
            | apply fine_refl | apply fine_stops; intros w; split; [reflexivity|right; eexists; reflexivity] ].
  Qed.

  Theorem fine_command cmd loc :
    fine (checked_command f cf C P co po cmd loc) (exec_command cf C P co po (x509_gen cf C P co po) cmd loc).
  Proof.
    destruct cmd; cbn [checked_command exec_command]; try apply fine_refl.
    - apply fine_init.
    - apply fine_derive.
    - apply fine_certify.
    - apply fine_sign.
    - apply fine_rotate.
    - apply fine_destroy.
    - apply fine_update.
  Qed.

  (** Creating an instance, as far as the answer goes. *)
  Theorem fine_new : fine (checked_new f cf C P co po) (dpe_new cf C P co po).
  Proof.
    unfold checked_new, dpe_new. apply fine_get_st. intros s. rewrite goes_off by reflexivity.
    destruct (sup_auto_init _); [|apply fine_eq; reflexivity]. apply fine_bind; [apply fine_refl|apply keeps_platform|].
    intros l. apply fine_bind_eq; [|reflexivity]. intros w1. unfold with_out.
    destruct (fine_init (bit 30) (N.modulo l (2 ^ 32)) (mkWorld (w_st w1) (w_c w1) (w_p w1) (repeat 0%N 28))) as [[S X]|X].
    - left. destruct (checked_init _ _ _ _ _ _ _ _) as [r w2]. cbn [fst snd w_st] in S, X. destruct X as [->|[e ->]].
      + split; [exact S|left; reflexivity].
      + split; [exact S|right; eexists; reflexivity].
    - right. rewrite X. reflexivity.
  Qed.

  Theorem fine_new_auto ty m w :
    fst (checked_new_auto_init f cf C P co po ty m w) = Crash CrashAssert \/
    (exists e, fst (checked_new_auto_init f cf C P co po ty m w) = Err e) \/
    checked_new_auto_init f cf C P co po ty m w = dpe_new_auto_init cf C P co po ty m w.
  Proof.
    unfold checked_new_auto_init, dpe_new_auto_init. rewrite !bind_get_st.
    set (k := fun _ : unit => bind (platform (po_auto_init_locality po)) _).
    set (k0 := fun _ : unit => bind (platform (po_auto_init_locality po)) _).
    assert (K : forall w1, fst (k tt w1) = Crash CrashAssert \/ (exists e, fst (k tt w1) = Err e) \/ k tt w1 = k0 tt w1).
    { assert (F : fine (k tt) (k0 tt)).
      { unfold k, k0. apply fine_bind; [apply fine_refl|apply keeps_platform|]. intros l. apply fine_get_st. intros s.
        apply fine_bind; [apply fine_refl|apply keeps_lift|]. intros i. apply fine_bind; [apply fine_refl|apply keeps_st_get|].
        intros c. apply fine_bind_eq; [apply fine_measurement|]. reflexivity. }
      intros w1. destruct (F w1) as [[_ X]|X]; tauto. }
    clearbody k k0. unfold goes. destruct (f AtAutoSupport), (sup_auto_init (st_support (w_st w))); cbn [negb].
    - right. left. eexists. reflexivity.
    - left. reflexivity.
    - rewrite asserts by reflexivity. unfold bind. destruct (fine_new w) as [[_ [X|[e X]]]|X].
      + left. destruct (checked_new f cf C P co po w) as [r w1]. cbn [fst] in X. rewrite X. reflexivity.
      + right. left. exists e. destruct (checked_new f cf C P co po w) as [r w1]. cbn [fst] in X. rewrite X. reflexivity.
      + rewrite X. destruct (dpe_new cf C P co po w) as [[[]|e|x] w1]; [apply K|right; right; reflexivity..].
    - right. right. reflexivity.
  Qed.
End Faults.

(** ** Any wrong decisions *)

(** What the assertions guarantee about a command that is carried out. *)
Definition warranted (s : state) (cmd : command) (loc : N) : Prop :=
  match cmd with
  | CmdInitCtx fl =>
      (N.testbit fl 30 = true /\ N.testbit fl 31 = false /\ st_init s = false) \/
      (N.testbit fl 30 = false /\ N.testbit fl 31 = true /\ supports s SIMULATION)
  | CmdDeriveContext c =>
      exists i pc, first_slot (names s (dc_handle c) loc) i /\ at_slot s i pc /\
        (N.testbit (dc_flags c) 31 = true -> supports s INTERNAL_INFO) /\
        (N.testbit (dc_flags c) 30 = true -> supports s INTERNAL_DICE) /\
        (N.testbit (dc_flags c) 29 = true -> supports s RETAIN_PARENT_CONTEXT) /\
        (N.testbit (dc_flags c) 25 = true -> supports s X509 /\ c_x509 pc = true) /\
        (N.testbit (dc_flags c) 24 = true -> N.testbit (dc_flags c) 29 = false)
  | CmdCertifyKey k =>
      exists i c, first_slot (names s (ck_handle (certify_inner k)) loc) i /\ at_slot s i c /\
        ((ck_format (certify_inner k) = 0%N /\ supports s X509 /\ c_x509 c = true) \/
         (ck_format (certify_inner k) = 1%N /\ supports s CSR))
  | CmdSign k =>
      exists h l d i c, sign_inputs k = Ok (h, l, d) /\
        first_slot (names s h loc) i /\ at_slot s i c /\ c_type c <> Simulation
  | CmdRotateCtx h fl =>
      supports s ROTATE_CONTEXT /\
      exists i, first_slot (names s h loc) i /\
        (N.testbit fl 31 = true ->
         (forall j, ~ names s default_handle loc j) /\
         forall j c, at_slot s j c -> c_state c = Active -> c_locality c = loc ->
                     c_handle c <> default_handle -> j = i)
  | _ => True
  end.

Section AnyFaults.
  Variable f : faults.
  Variable cf : config.
  Variables C P : Type.
  Variable co : crypto_ops C.
  Variable po : platform_ops P.

  Lemma assert_inv {B} b (k : M C P B) w n w' :
    (assert C P b ;; k) w = (Ok n, w') -> b = true /\ k w = (Ok n, w').
  Proof. unfold assert, rassert. destruct b; [auto|discriminate]. Qed.

  Lemma assert_only b w n w' : assert C P b w = (Ok n, w') -> b = true /\ w' = w.
  Proof. unfold assert, rassert, lift. destruct b; intros H; inversion H; auto. Qed.

  Lemma guard_inv {B} (b : bool) e (k : M C P B) w n w' :
    (if b then fail e else k) w = (Ok n, w') -> k w = (Ok n, w').
  Proof. destruct b; [discriminate|auto]. Qed.

  Lemma ok_bind {A B} (m : M C P A) (k : A -> M C P B) w n w' :
    bind m k w = (Ok n, w') -> exists a w1, m w = (Ok a, w1) /\ k a w1 = (Ok n, w').
  Proof. intros H. apply bind_inv in H as [X|[(e & _ & X)|(e & _ & X)]]; [exact X|discriminate..]. Qed.

  Lemma ok_lift {A B} (r : result A) (k : A -> M C P B) w n w' :
    bind (lift r) k w = (Ok n, w') -> exists a, r = Ok a /\ k a w = (Ok n, w').
  Proof. unfold bind, lift. destruct r; [eauto|discriminate..]. Qed.

  Lemma ok_get {B} i e (k : context -> M C P B) w n w' :
    bind (st_get C P i e) k w = (Ok n, w') -> exists c, get_ctx (w_st w) i = Some c /\ k c w = (Ok n, w').
  Proof.
    intros H. apply ok_bind in H as (c & w1 & E & H). apply st_get_inv in E as [-> E].
    destruct (get_ctx (w_st w) i); inversion E; subst. eauto.
  Qed.

  Lemma warranted_init fl loc w n w' :
    checked_init f cf C P co fl loc w = (Ok n, w') -> warranted (w_st w) (CmdInitCtx fl) loc.
  Proof.
    unfold checked_init. rewrite bind_get_st. intros H. apply guard_inv in H. apply guard_inv in H.
    apply assert_inv in H as [A1 H]. apply assert_inv in H as [A2 H]. apply assert_inv in H as [A3 H]. clear H.
    unfold if_default, if_simulation, sup_simulation in *. rewrite !contains_bit in *.
    cbn [warranted]. unfold supports, SIMULATION.
    destruct (N.testbit fl 30), (N.testbit fl 31), (st_init (w_st w)); cbn in *; try discriminate; auto.
  Qed.

  Lemma warranted_derive c loc w n w' :
    checked_derive f cf C P co po c loc w = (Ok n, w') -> warranted (w_st w) (CmdDeriveContext c) loc.
  Proof.
    unfold checked_derive. rewrite bind_get_st. intros H. apply guard_inv in H.
    apply ok_lift in H as ((pc & i) & L & H). apply guard_inv in H.
    apply ok_bind in H as (t & w1 & _ & H).
    apply assert_inv in H as [A1 H]. apply assert_inv in H as [A2 H]. apply assert_inv in H as [A3 H].
    apply assert_inv in H as [A4 H]. apply assert_inv in H as [A5 H]. apply assert_inv in H as [A6 H]. clear H.
    apply lookup_idx_ok in L as [L1 L2].
    unfold df_internal_info, df_internal_dice, df_retain_parent, df_allow_x509, df_recursive,
      sup_internal_info, sup_internal_dice, sup_retain_parent, sup_x509 in *.
    rewrite !contains_bit in *. cbn [warranted]. exists i, pc. split; [exact L1|]. split; [exact L2|].
    unfold supports, INTERNAL_INFO, INTERNAL_DICE, RETAIN_PARENT_CONTEXT, X509.
    split; [|split; [|split; [|split]]]; intros X; rewrite ?X in *; cbn [negb orb] in *; rewrite ?orb_false_r in *; auto.
    destruct (N.testbit (dc_flags c) 29); [discriminate|reflexivity].
  Qed.

  Lemma warranted_certify k loc w n w' :
    checked_certify f cf C P co po k loc w = (Ok n, w') -> warranted (w_st w) (CmdCertifyKey k) loc.
  Proof.
    unfold checked_certify. rewrite bind_get_st. intros H.
    apply ok_lift in H as (i & L & H). apply ok_get in H as (c & G & H).
    apply ok_bind in H as ([] & w1 & E & H). apply guard_inv in H.
    apply assert_inv in H as [A1 H]. apply assert_inv in H as [A2 H]. apply assert_inv in H as [A3 H].
    apply assert_inv in H as [A4 H]. apply ok_bind in H as (r & w2 & R & _).
    apply lookup_ok in L. unfold sup_x509, sup_csr in *. rewrite !contains_bit in *.
    cbn [warranted]. exists i, c. split; [exact L|]. split; [exact G|].
    unfold supports, X509, CSR.
    destruct (goes f AtCertifyIsX509 _).
    - apply assert_inv in R as [R _]. rewrite R in *. apply N.eqb_eq in R. cbn in A1, A2. auto.
    - destruct (goes f AtCertifyIsCsr _); [|discriminate].
      apply assert_inv in R as [R _]. rewrite R in *. apply N.eqb_eq in R. cbn in A3. auto.
  Qed.

  Lemma warranted_sign k loc w n w' :
    checked_sign f cf C P co po k loc w = (Ok n, w') -> warranted (w_st w) (CmdSign k) loc.
  Proof.
    unfold checked_sign. intros H. apply ok_lift in H as ([[h l] d] & I & H). rewrite bind_get_st in H.
    apply ok_lift in H as (i & L & H). apply ok_get in H as (c & G & H). apply guard_inv in H.
    apply assert_inv in H as [A _]. apply lookup_ok in L. cbn [warranted].
    exists h, l, d, i, c. repeat split; try assumption. 1-2: apply L.
    intros T. rewrite T in A. discriminate.
  Qed.

  Lemma warranted_rotate h fl loc w n w' :
    checked_rotate f cf C P co h fl loc w = (Ok n, w') -> warranted (w_st w) (CmdRotateCtx h fl) loc.
  Proof.
    unfold checked_rotate. rewrite bind_get_st. intros H. apply guard_inv in H.
    apply assert_inv in H as [A H]. apply ok_lift in H as (i & L & H).
    apply ok_bind in H as ([] & w1 & E & _). apply lookup_ok in L.
    unfold sup_rotate in A. rewrite contains_bit in A. cbn [warranted]. split; [exact A|]. exists i. split; [exact L|].
    unfold rf_target_default in E. rewrite !contains_bit in E. intros T. rewrite T in E.
    destruct (goes f AtRotateTarget true).
    - apply guard_inv in E. apply assert_only in E as [E _]. apply andb_prop in E as [E1 E2].
      apply negb_true_iff in E1. apply negb_true_iff in E2.
      split; [exact (lookup_not_ok _ _ _ E1)|exact (other_non_default_false _ _ _ E2)].
    - discriminate.
  Qed.

  Theorem warranted_command cmd loc w n w' :
    checked_command f cf C P co po cmd loc w = (Ok n, w') -> warranted (w_st w) cmd loc.
  Proof.
    destruct cmd; cbn [checked_command]; try exact (fun _ => I).
    - apply warranted_init.
    - apply warranted_derive.
    - apply warranted_certify.
    - apply warranted_sign.
    - apply warranted_rotate.
  Qed.
End AnyFaults.
