(** FeatureProofs.v -- a build with [disable_*] features behaves like the default
    build whose instance does not support those features. *)
From Verif Require Import Base Errors Types StateOps Env Wire Instance Commands X509 X509Cert Response Features
  Lib Spec Exec Effects Steps Codec WireSpec History Reach.
Local Open Scope nat_scope.
Open Scope dpe_scope.

(** No feature in [d] is supported by the instance. *)
Definition nothing_disabled (d : N) (s : state) : Prop :=
  forall i, supports s i -> N.testbit d i = false.

(** No context of [s] asks for an input the build leaves out. *)
Definition inputs_built (d : N) (s : state) : Prop :=
  forall c, In c (st_contexts s) ->
    (c_info c = true -> N.testbit d 22 = false) /\ (c_dice c = true -> N.testbit d 21 = false).

Lemma built_inputs cf d s : wf cf s -> nothing_disabled d s -> inputs_built d s.
Proof.
  intros W N c Hc. apply In_nth_error in Hc as [i Hi]. pose proof (wf_slot _ _ W i c Hi) as K.
  split; intros H; apply N; [exact (so_info _ _ _ K H)|exact (so_dice _ _ _ K H)].
Qed.

Lemma new_nothing_disabled d cf sup fl : nothing_disabled d (gated_state_new d cf sup fl).
Proof.
  intros i H. unfold supports, gated_state_new, gated_support, state_new, preprocess_support in H.
  cbn [st_support] in H. rewrite N.ldiff_spec in H. destruct (N.testbit d i); [|reflexivity].
  rewrite andb_false_r in H. discriminate.
Qed.

Section Gated.
  Variable d : N.
  Variable cf : config.
  Variables C P : Type.
  Variable co : crypto_ops C.
  Variable po : platform_ops P.

  Lemma ext_bind {A B} (m : M C P A) (f g : A -> M C P B) w :
    (forall a w', m w = (Ok a, w') -> f a w' = g a w') -> bind m f w = bind m g w.
  Proof. intros H. unfold bind. destruct (m w) as [[a|e|k] w']; auto. Qed.

  Lemma iter_next_in l it c it' : iter_next cf l it = (Some (Ok c), it') -> In c l.
  Proof.
    unfold iter_next. destruct (it_done it); [discriminate|]. destruct (Nat.leb _ _); [discriminate|].
    destruct (Nat.leb _ _); [discriminate|]. unfold iter_get_context.
    destruct (nth_error l (it_front it)) as [x|] eqn:E; [|discriminate].
    destruct (_ || _)%bool; [discriminate|]. intros H. injection H as <- _. exact (nth_error_In _ _ E).
  Qed.

  Lemma hash_nodes_flags n l : forall it i0 d0 w i1 d1 w',
    hash_nodes cf C P co n l it i0 d0 w = (Ok (i1, d1), w') ->
    (i1 = true -> i0 = true \/ exists c, In c l /\ c_info c = true) /\
    (d1 = true -> d0 = true \/ exists c, In c l /\ c_dice c = true).
  Proof.
    induction n as [|n IH]; intros it i0 d0 w i1 d1 w' H; cbn [hash_nodes] in H; [discriminate|].
    destruct (iter_next cf l it) as [[[c|e|k]|] it'] eqn:E; try discriminate.
    - apply iter_next_in in E.
      apply bind_inv in H as [(u & w1 & _ & H)|[(e & _ & X)|(k & _ & X)]]; try discriminate.
      apply bind_inv in H as [(u2 & w2 & _ & H)|[(e & _ & X)|(k & _ & X)]]; try discriminate.
      apply IH in H as [HI HD]. split; intros X.
      + destruct (HI X) as [Y|Y]; [|right; exact Y]. apply orb_true_iff in Y as [Y|Y]; [left; exact Y|right; eauto].
      + destruct (HD X) as [Y|Y]; [|right; exact Y]. apply orb_true_iff in Y as [Y|Y]; [left; exact Y|right; eauto].
    - apply ret_inv in H as [H _]. injection H as -> ->. auto.
  Qed.

  Lemma gated_hash_eq start w : inputs_built d (w_st w) ->
    gated_hash d cf C P co po start w = compute_measurement_hash cf C P co po start w.
  Proof.
    intros N. unfold gated_hash, compute_measurement_hash.
    apply ext_bind; intros u1 w1 E1. apply keeps_crypto in E1 as [E1 _].
    apply ext_bind; intros u2 w2 E2. apply keeps_crypto in E2 as [E2 _].
    rewrite !bind_get_st. apply ext_bind; intros it w3 E3. apply lift_inv in E3 as [_ ->].
    apply ext_bind; intros [info dice] w4 E4. apply hash_nodes_flags in E4 as [HI HD].
    rewrite E2, E1 in *.
    replace (negb (N.testbit d 22) && info)%bool with info.
    2:{ destruct info; [|rewrite andb_false_r; reflexivity]. destruct (HI eq_refl) as [X|(c & Hc & X)]; [discriminate|].
        rewrite (proj1 (N c Hc) X). reflexivity. }
    replace (negb (N.testbit d 21) && dice)%bool with dice; [reflexivity|].
    destruct dice; [|rewrite andb_false_r; reflexivity]. destruct (HD eq_refl) as [X|(c & Hc & X)]; [discriminate|].
    rewrite (proj2 (N c Hc) X). reflexivity.
  Qed.

  Lemma gated_create_eq k a off w : inputs_built d (w_st w) ->
    gated_create_cert d cf C P co po k a off w = create_cert cf C P co po k a off w.
  Proof.
    intros N. unfold gated_create_cert, create_cert. rewrite !bind_get_st.
    apply ext_bind; intros idx w1 E. apply lift_inv in E as [_ ->].
    unfold bind at 1. symmetry. unfold bind at 1. symmetry. rewrite gated_hash_eq by exact N. reflexivity.
  Qed.

  Lemma gated_gen_eq k a off s c p out : inputs_built d s ->
    gated_gen d cf C P co po k a off s c p out = x509_gen cf C P co po k a off s c p out.
  Proof. intros N. unfold gated_gen, x509_gen. rewrite gated_create_eq by exact N. reflexivity. Qed.

  Lemma gated_run_eq k a off w : inputs_built d (w_st w) ->
    run_cert C P (gated_gen d cf C P co po) k a off w = run_cert C P (x509_gen cf C P co po) k a off w.
  Proof. intros N. unfold run_cert. rewrite gated_gen_eq by exact N. reflexivity. Qed.

  Lemma gated_sign_eq c loc w : inputs_built d (w_st w) ->
    gated_sign d cf C P co po c loc w = exec_sign cf C P co po c loc w.
  Proof.
    intros N. unfold gated_sign, exec_sign.
    apply ext_bind; intros [[h label] data] w1 E. apply lift_inv in E as [_ ->].
    rewrite !bind_get_st. apply ext_bind; intros idx w1 E. apply lift_inv in E as [_ ->].
    apply ext_bind; intros ctx w1 E. unfold st_get in E. rewrite bind_get_st in E. apply lift_inv in E as [_ ->].
    destruct (ctx_type_eqb _ _); [reflexivity|].
    assert (Q : gated_do_sign d cf C P co po idx label data w = do_sign cf C P co po idx label data w).
    { unfold gated_do_sign, do_sign. unfold bind at 1. symmetry. unfold bind at 1. symmetry.
      rewrite gated_hash_eq by exact N. reflexivity. }
    unfold bind at 1. symmetry. unfold bind at 1. symmetry. rewrite Q. reflexivity.
  Qed.

  Lemma gated_export_eq c parent tp loc w : inputs_built d (w_st w) ->
    derive_export cf C P po (gated_gen d cf C P co po) c parent tp loc w =
    derive_export cf C P po (x509_gen cf C P co po) c parent tp loc w.
  Proof.
    intros N. unfold derive_export.
    apply ext_bind; intros u w1 E. apply keeps_platform in E as [E _].
    apply ext_bind; intros ueid w2 E2. apply lift_inv in E2 as [_ ->]. rewrite !bind_get_st.
    assert (N1 : inputs_built d (w_st w1)) by (rewrite E; exact N).
    unfold bind at 1. symmetry. unfold bind at 1. symmetry. rewrite gated_run_eq by exact N1. reflexivity.
  Qed.

  Lemma tmp_parent_keeps f pc : keeps (derive_tmp_parent C P co f pc).
  Proof. unfold derive_tmp_parent. keeps_auto. apply generate_new_handle_keeps. Qed.

  Lemma gated_derive_eq c loc w : inputs_built d (w_st w) -> nothing_disabled d (w_st w) ->
    gated_derive d cf C P co po c loc w = exec_derive cf C P co po (x509_gen cf C P co po) c loc w.
  Proof.
    intros I N. unfold gated_derive, exec_derive. rewrite !bind_get_st.
    destruct (derive_unsupported (st_support (w_st w)) (dc_flags c)) eqn:U; [reflexivity|].
    unfold derive_unsupported in U.
    apply orb_false_iff in U as [U U6]. apply orb_false_iff in U as [U U5].
    apply ext_bind; intros [pc parent] w1 E. apply lift_inv in E as [_ ->].
    destruct (derive_bad_args pc (dc_flags c)); [reflexivity|].
    destruct (df_recursive (dc_flags c)) eqn:R.
    { rewrite (N 30%N); [reflexivity|]. exact (sup_bit _ _ _ U6 eq_refl). }
    apply ext_bind; intros u w1 E. apply lift_inv in E as [_ ->]. destruct u; [|reflexivity]. cbn [negb].
    apply ext_bind; intros pc2 w1 E. unfold st_get in E. rewrite bind_get_st in E. apply lift_inv in E as [_ ->].
    apply ext_bind; intros tp w1 E. apply tmp_parent_keeps in E as [E _].
    destruct (df_create_cert (dc_flags c) && df_export_cdi (dc_flags c))%bool eqn:X; [|reflexivity].
    rewrite (N 18%N).
    - apply gated_export_eq. rewrite E. exact I.
    - apply andb_true_iff in X as [X1 X2]. refine (sup_bit _ _ _ U5 _). rewrite X1. reflexivity.
  Qed.

  Lemma gated_certify_eq c loc w : inputs_built d (w_st w) -> nothing_disabled d (w_st w) ->
    gated_certify d cf C P co po c loc w = exec_certify cf C P co (x509_gen cf C P co po) c loc w.
  Proof.
    intros I N. unfold gated_certify, exec_certify. rewrite !bind_get_st.
    apply ext_bind; intros idx w1 E. apply lift_inv in E as [_ ->].
    apply ext_bind; intros ctx w1 E. unfold st_get in E. rewrite bind_get_st in E. apply lift_inv in E as [_ ->].
    destruct (N.eqb (ck_format (certify_inner c)) 0) eqn:F0; cbn [andb].
    - destruct (sup_x509 (st_support (w_st w))) eqn:S; cbn [negb]; [|reflexivity].
      unfold sup_x509 in S. rewrite contains_bit in S. rewrite (N 26%N S).
      destruct (negb (c_x509 ctx)); [reflexivity|]. destruct (_ && _)%bool; [reflexivity|].
      destruct (negb _); [reflexivity|].
      unfold bind at 1. symmetry. unfold bind at 1. symmetry. rewrite gated_run_eq by exact I. reflexivity.
    - destruct (N.eqb (ck_format (certify_inner c)) 1) eqn:F1; cbn [andb]; [|reflexivity].
      destruct (sup_csr (st_support (w_st w))) eqn:S; cbn [negb]; [|reflexivity].
      unfold sup_csr in S. rewrite contains_bit in S. rewrite (N 25%N S).
      destruct (negb _); [reflexivity|].
      unfold bind at 1. symmetry. unfold bind at 1. symmetry. rewrite gated_run_eq by exact I. reflexivity.
  Qed.

  Theorem gated_command_eq cmd loc w : wf cf (w_st w) -> nothing_disabled d (w_st w) ->
    gated_command d cf C P co po cmd loc w =
    exec_command cf C P co po (x509_gen cf C P co po) cmd loc w.
  Proof.
    intros W N. pose proof (built_inputs cf d _ W N) as I.
    destruct cmd as [|f|c|c|c|h f|h|o z|u]; cbn [gated_command exec_command]; try reflexivity.
    - apply gated_derive_eq; assumption.
    - apply gated_certify_eq; assumption.
    - apply gated_sign_eq; assumption.
    - destruct (N.testbit d 27) eqn:R; [|reflexivity]. unfold exec_rotate. rewrite bind_get_st.
      destruct (sup_rotate (st_support (w_st w))) eqn:S; [|reflexivity].
      unfold sup_rotate in S. rewrite contains_bit in S. rewrite (N 27%N S) in R. discriminate.
  Qed.
End Gated.

(** ** Requests *)

(** The answers of the two builds to one request: equal, or a request for
    RotateContextHandle, which one build does not know and the other refuses. *)
Definition answers_alike (d : N) (cf : config) (b : bytes) (gated full : result response) : Prop :=
  gated = full \/
  (N.testbit d 27 = true /\ good_header cf b 14 /\ gated = Err InvalidCommand /\
   (full = Err InvalidArgument \/
    full = Ok (RespError {| rh_magic := 0x44504552; rh_status := 2; rh_profile := prof cf |}))).

Section Requests.
  Variable d : N.
  Variable cf : config.
  Hypothesis Hcf : config_ok cf.
  Variables C P : Type.
  Variable co : crypto_ops C.
  Variable po : platform_ops P.
  Notation gen := (x509_gen cf C P co po).

  Lemma gated_execute_eq cmd loc w : wf cf (w_st w) -> nothing_disabled d (w_st w) ->
    gated_execute d cf C P co po cmd loc w = execute cf C P co po gen cmd loc w.
  Proof.
    intros W N. unfold gated_execute, execute, with_out.
    unfold bind at 1. symmetry. unfold bind at 1. symmetry. rewrite gated_command_eq by assumption. reflexivity.
  Qed.

  Lemma rotate_refused h f loc w : nothing_disabled d (w_st w) -> N.testbit d 27 = true ->
    execute cf C P co po gen (CmdRotateCtx h f) loc w = (Err InvalidCommand, w).
  Proof.
    intros N R. unfold execute, with_out. unfold bind at 1. cbn [exec_command]. unfold exec_rotate.
    rewrite bind_get_st. cbn [w_st].
    destruct (sup_rotate (st_support (w_st w))) eqn:S.
    - unfold sup_rotate in S. rewrite contains_bit in S. rewrite (N 27%N S) in R. discriminate.
    - destruct w; reflexivity.
  Qed.

  Theorem gated_serialized_alike loc b w : all_bytes b -> wf cf (w_st w) -> nothing_disabled d (w_st w) ->
    exists rg rf w',
      gated_serialized d cf C P co po loc b w = (rg, w') /\
      execute_serialized_command cf C P co po gen loc b w = (rf, w') /\ answers_alike d cf b rg rf.
  Proof.
    intros Hb W N. unfold gated_serialized, execute_serialized_command, gated_deserialize.
    destruct (parse_command_hdr cf b) as [id|e|k] eqn:E; cbn [rbind].
    - destruct (N.testbit d 27 && N.eqb id 14)%bool eqn:R.
      + apply andb_true_iff in R as [R I]. apply N.eqb_eq in I. subst id.
        pose proof (parse_hdr_inv cf b 14 Hb E) as (p & rest & Eb & Hi & Hp & Hor).
        assert (G : good_header cf b 14).
        { exists p, rest. split; [exact Eb|]. split; [exact Hi|]. split; [exact Hp|]. intros _.
          destruct Hor as [X| ->]; [discriminate|]. unfold own_profile. destruct (prof cf); reflexivity. }
        unfold bind at 1. unfold lift at 1. unfold deserialize_command. rewrite E. cbn [rbind].
        destruct (split_fields [handle_size; 4] (skipn hdr_size b)) as [[|h [|f [|]]]|].
        3:{ eexists; eexists; eexists. split; [reflexivity|]. split.
            - unfold bind, lift. rewrite (rotate_refused h (le_val f) loc w N R). reflexivity.
            - right. split; [exact R|]. split; [exact G|]. split; [reflexivity|]. right. reflexivity. }
        all: eexists; eexists; eexists; split; [reflexivity|]; split; [reflexivity|];
             right; split; [exact R|]; split; [exact G|]; split; [reflexivity|left; reflexivity].
      + destruct (deserialize_command cf b) as [cmd|e|k].
        * unfold bind, lift. rewrite (gated_execute_eq cmd loc w W N).
          destruct (execute cf C P co po gen cmd loc w) as [[r|e|k] w1];
            (eexists; eexists; eexists; split; [reflexivity|]; split; [reflexivity|left; reflexivity]).
        * eexists; eexists; eexists; split; [reflexivity|]; split; [reflexivity|left; reflexivity].
        * eexists; eexists; eexists; split; [reflexivity|]; split; [reflexivity|left; reflexivity].
    - unfold deserialize_command. rewrite E.
      eexists; eexists; eexists; split; [reflexivity|]; split; [reflexivity|left; reflexivity].
    - unfold deserialize_command. rewrite E.
      eexists; eexists; eexists; split; [reflexivity|]; split; [reflexivity|left; reflexivity].
  Qed.

  (** What a request leaves behind is again such a state. *)
  Lemma serialized_keeps loc b w r w' : all_bytes b -> u32 loc -> wf cf (w_st w) -> nothing_disabled d (w_st w) ->
    execute_serialized_command cf C P co po gen loc b w = (r, w') ->
    wf cf (w_st w') /\ nothing_disabled d (w_st w').
  Proof.
    intros Hb Hl W N H. unfold execute_serialized_command, bind at 1, lift at 1 in H.
    destruct (deserialize_command cf b) as [cmd|e|k] eqn:D; [|inversion H; subst; auto|inversion H; subst; auto].
    apply (deserialize_ok cf b cmd Hb) in D as (Wc & _).
    assert (K : w_st w' = w_st (snd (exec_command cf C P co po gen cmd loc
                  (mkWorld (w_st w) (w_c w) (w_p w) (repeat 0%N (response_size cf cmd)))))).
    { unfold execute, with_out, bind in H.
      destruct (exec_command cf C P co po gen cmd loc (mkWorld (w_st w) (w_c w) (w_p w) (repeat 0%N (response_size cf cmd))))
        as [[n|e|k] w1]; cbn [snd].
      - unfold lift in H. destruct (ok_or _ _); inversion H; reflexivity.
      - inversion H; reflexivity.
      - inversion H; reflexivity. }
    rewrite K. clear K H.
    destruct (exec_command cf C P co po gen cmd loc (mkWorld (w_st w) (w_c w) (w_p w) (repeat 0%N (response_size cf cmd))))
      as [r1 [s1 c1 p1 o1]] eqn:X. cbn [snd w_st].
    pose (e := {| e_C := C; e_P := P; e_crypto := co; e_platform := po; e_cert := gen |}).
    assert (Y : executes cf e cmd loc (w_st w) r1 s1).
    { exists (w_c w), (w_p w), (repeat 0%N (response_size cf cmd)), c1, p1, o1. exact X. }
    split; [exact (executes_wf cf Hcf e cmd loc _ _ _ W Wc Hl Y)|].
    apply (executes_changes cf e Hcf anywhere) in Y; auto using any_allowed.
    apply changes_globals in Y as (_ & _ & S & _). intros i Hi. apply N. unfold supports in *. rewrite <- S. exact Hi.
  Qed.

  (** A list of requests served one after the other, with the answers. *)
  Fixpoint serve (step : N -> bytes -> M C P response) (l : list (N * bytes)) (w : world C P)
    : list (result response) * world C P :=
    match l with
    | [] => ([], w)
    | (loc, b) :: l' =>
        let '(r, w1) := step loc b w in let '(rs, w2) := serve step l' w1 in (r :: rs, w2)
    end.

  Theorem serve_alike l : forall w, Forall (fun q => u32 (fst q) /\ all_bytes (snd q)) l ->
    wf cf (w_st w) -> nothing_disabled d (w_st w) ->
    exists gs fs w',
      serve (gated_serialized d cf C P co po) l w = (gs, w') /\
      serve (execute_serialized_command cf C P co po gen) l w = (fs, w') /\
      length gs = length l /\ length fs = length l /\
      forall i q g f, nth_error l i = Some q -> nth_error gs i = Some g -> nth_error fs i = Some f ->
        answers_alike d cf (snd q) g f.
  Proof.
    induction l as [|[loc b] l IH]; intros w F W N.
    { exists [], [], w. repeat split; auto. intros [|i] q g f H; discriminate. }
    inversion F as [|? ? [Hl Hb] F']; subst. cbn [fst snd] in Hl, Hb. cbn [serve].
    destruct (gated_serialized_alike loc b w Hb W N) as (rg & rf & w1 & Eg & Ef & A).
    destruct (serialized_keeps loc b w rf w1 Hb Hl W N Ef) as [W1 N1].
    destruct (IH w1 F' W1 N1) as (gs & fs & w2 & Sg & Sf & Lg & Lf & Q). rewrite Eg, Ef, Sg, Sf.
    exists (rg :: gs), (rf :: fs), w2. repeat split; try (cbn [length]; congruence).
    intros [|i] q g f H1 H2 H3; cbn [nth_error] in *; [|exact (Q i q g f H1 H2 H3)].
    injection H1 as <-. injection H2 as <-. injection H3 as <-. exact A.
  Qed.
End Requests.
