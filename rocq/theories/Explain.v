(** Explain.v -- every error a command answers has one of the reasons of
    Reasons.v, and no command aborts. *)
From Verif Require Import Base Errors Types StateOps Env Wire Instance Commands Lib Spec Exec
  Effects Forest DestroyProofs History Steps Contract Denials CommandSpecs TreeProofs Responses
  Walk Measure Reasons.
Local Open Scope nat_scope.
Open Scope dpe_scope.

Section Blame.
  Context {C P : Type}.

  (** Errors of the back ends come from the calls in [Cf] and [Pf]; chunk
      errors only if [Ov]. *)
  Definition blamed (Cf : crypto_error -> Prop) (Pf : platform_error -> Prop) (Ov : Prop) (e : dpe_error) : Prop :=
    match e with
    | CryptoErr ce => Cf ce
    | PlatformErr pe => Pf pe
    | InternalError CertChainChunkSliceOob => Ov
    | _ => True
    end.
  Definition blames Cf Pf Ov {A} (m : M C P A) : Prop :=
    forall w e w', m w = (Err e, w') -> blamed Cf Pf Ov e.

  Variable Cf : crypto_error -> Prop.
  Variable Pf : platform_error -> Prop.
  Variable Ov : Prop.
  Notation bl := (blames Cf Pf Ov).
  Lemma blames_bind {A B} (m : M C P A) (f : A -> M C P B) :
    bl m -> (forall a, bl (f a)) -> bl (bind m f).
  Proof.
    intros Hm Hf w e w' H. apply bind_inv in H as [(a & w1 & E & H)|[(e' & E & H)|(k & E & H)]].
    - exact (Hf _ _ _ _ H).
    - injection H as ->. exact (Hm _ _ _ E).
    - discriminate.
  Qed.
  Lemma blames_ret {A} (a : A) : bl (ret a).
  Proof. intros w e w' H; inversion H. Qed.
  Lemma blames_fail {A} e : blamed Cf Pf Ov e -> bl (@fail C P A e).
  Proof. intros He w e' w' H; injection H as -> ->; exact He. Qed.
  Lemma blames_lift {A} (x : result A) :
    (forall e, x = Err e -> blamed Cf Pf Ov e) -> bl (lift x).
  Proof. intros Hx w e' w' H; injection H as H ->. auto. Qed.
  Lemma blames_get_st : bl get_st.
  Proof. intros w e w' H; inversion H. Qed.
  Lemma blames_crypto {A} (f : C -> (A + crypto_error) * C) :
    (forall c e c', f c = (inr e, c') -> Cf e) -> bl (crypto f).
  Proof.
    intros Hf w e w' H. apply crypto_inv in H as (c' & _ & [(a & X & _)|(ce & X & Hc)]); [discriminate|].
    injection X as ->. exact (Hf _ _ _ Hc).
  Qed.
  Lemma blames_platform {A} (f : P -> (A + platform_error) * P) :
    (forall c e c', f c = (inr e, c') -> Pf e) -> bl (platform f).
  Proof.
    intros Hf w e w' H. apply platform_inv in H as (c' & _ & [(a & X & _)|(ce & X & Hc)]); [discriminate|].
    injection X as ->. exact (Hf _ _ _ Hc).
  Qed.
End Blame.

Ltac blames_auto :=
  repeat match goal with
    | |- blames _ _ _ (bind _ _) => apply blames_bind; [|intros]
    | |- blames _ _ _ (ret _) => apply blames_ret
    | |- blames _ _ _ (fail _) => apply blames_fail; cbn [blamed]; try exact Logic.I
    | |- blames _ _ _ get_st => apply blames_get_st
    | |- blames _ _ _ (match ?x with _ => _ end) => destruct x
    end.

Section Explain.
  Variable cf : config.
  Hypothesis Hcf : config_ok cf.
  Variables C P : Type.
  Variable co : crypto_ops C.
  Variable po : platform_ops P.
  Variable cg : cert_kind -> cert_args -> nat -> state -> C -> P -> bytes ->
                result cert_result * C * P * bytes.
  Notation M := (M C P).
  Notation world := (world C P).

  (** ** Handles *)
  Lemma gen_loop_err n : forall (w : world) e w',
    gen_handle_loop C P co n w = (Err e, w') ->
    (exists ce, e = CryptoErr ce /\ rand_fault co ce) \/
    (e = InternalError HandleGenerationExhausted /\ unlucky co (w_st w) n (w_c w)).
  Proof.
    induction n as [|n IH]; cbn [gen_handle_loop]; intros w e w' H.
    - apply fail_inv in H as [H _]. injection H as ->. right. split; [reflexivity|constructor].
    - apply bind_inv in H as [(a & w1 & E & H)|[(e' & E & H)|(k & E & H)]]; [| |discriminate];
        change handle_size with 16 in *;
        apply crypto_inv in E as (c' & -> & [(a0 & X & Hc)|(ce & X & Hc)]); try discriminate.
      + injection X as <-. rewrite bind_get_st in H. cbn [w_st] in H.
        destruct (negb (handle_is_default (to_buf 16 a)) &&
                  negb (existsb (fun c => handle_eqb (c_handle c) (to_buf 16 a)) (st_contexts (w_st w))))%bool eqn:B.
        * apply ret_inv in H as [H _]; discriminate.
        * apply IH in H as [H|[-> H]]; [left; exact H|]. cbn [w_st w_c] in H.
          right. split; [reflexivity|]. econstructor; [exact Hc| |exact H].
          apply andb_false_iff in B as [B|B]; apply negb_false_iff in B.
          -- left. apply handle_is_default_eq in B. exact B.
          -- right. apply existsb_exists in B as (x & Hx & B). apply In_nth_error in Hx as [i Hi].
             exists i, x. split; [exact Hi|]. apply handle_eqb_eq. exact B.
      + injection X as ->. injection H as ->. left. exists ce. split; [reflexivity|]. exists (w_c w), c'. exact Hc.
  Qed.

  Lemma gen_err (w : world) e w' :
    generate_new_handle C P co w = (Err e, w') -> no_handle co (w_st w') e.
  Proof.
    intros H. pose proof (generate_new_handle_keeps C P co _ _ _ H) as [K _].
    apply gen_loop_err in H as [H|[-> H]]; [left; exact H|right]. rewrite K. split; [reflexivity|]. eexists; exact H.
  Qed.

  Lemma roll_err c (w : world) e w' :
    roll_handle C P co c w = (Err e, w') -> c_handle c <> repeat 0%N 16 /\ no_handle co (w_st w') e.
  Proof.
    unfold roll_handle. destruct (handle_is_default (c_handle c)) eqn:D; cbn [negb]; intros H.
    - apply ret_inv in H as [H _]; discriminate.
    - apply handle_is_default_neq in D. split; [exact D|].
      apply bind_inv in H as [(a & w1 & E & H)|[(e' & E & H)|(k & E & H)]]; [| |discriminate].
      + apply ret_inv in H as [H _]; discriminate.
      + injection H as ->. eapply gen_err; exact E.
  Qed.

  (** ** Hashes *)
  Lemma hash_update_blames Pf Ov b : @blames C P (hash_fault co) Pf Ov _ (crypto (co_hash_update co b)).
  Proof. apply blames_crypto. intros c e c' H. right; right; left; eauto. Qed.
  Lemma hasher_blames Pf Ov : @blames C P (hash_fault co) Pf Ov _ (crypto (co_hasher co)).
  Proof. apply blames_crypto. intros c e c' H. left; eauto. Qed.
  Lemma hash_init_blames Pf Ov : @blames C P (hash_fault co) Pf Ov _ (crypto (co_hash_initialize co)).
  Proof. apply blames_crypto. intros c e c' H. right; left; eauto. Qed.
  Lemma hash_finish_blames Pf Ov : @blames C P (hash_fault co) Pf Ov _ (crypto (co_hash_finish co)).
  Proof. apply blames_crypto. intros c e c' H. right; right; right; eauto. Qed.

  Lemma hash_updates_err l : forall (w : world) e w',
    hash_updates C P co l w = (Err e, w') -> exists ce, e = CryptoErr ce /\ hash_fault co ce.
  Proof.
    induction l as [|b l IH]; cbn [hash_updates]; intros w e w' H.
    - apply ret_inv in H as [H _]; discriminate.
    - apply bind_inv in H as [(a & w1 & E & H)|[(e' & E & H)|(k & E & H)]]; [eauto| |discriminate].
      apply crypto_inv in E as (c' & _ & [(a & X & _)|(ce & X & Hc)]); [discriminate|].
      injection X as ->. injection H as ->. exists ce. split; [reflexivity|]. right; right; left; eauto.
  Qed.
  Lemma hash_all_err l (w : world) e w' :
    hash_all C P co l w = (Err e, w') -> exists ce, e = CryptoErr ce /\ hash_fault co ce.
  Proof.
    unfold hash_all. intros H.
    apply bind_inv in H as [(a & w1 & E & H)|[(e' & E & H)|(k & E & H)]]; [| |discriminate].
    2:{ apply crypto_inv in E as (c' & _ & [(a & X & _)|(ce & X & Hc)]); [discriminate|].
        injection X as ->. injection H as ->. exists ce. split; [reflexivity|]. left; eauto. }
    apply bind_inv in H as [(a1 & w2 & E1 & H)|[(e' & E1 & H)|(k & E1 & H)]]; [| |discriminate].
    2:{ apply crypto_inv in E1 as (c' & _ & [(a1 & X & _)|(ce & X & Hc)]); [discriminate|].
        injection X as ->. injection H as ->. exists ce. split; [reflexivity|]. right; left; eauto. }
    apply bind_inv in H as [(a2 & w3 & E2 & H)|[(e' & E2 & H)|(k & E2 & H)]]; [| |discriminate].
    2:{ injection H as ->. eapply hash_updates_err; exact E2. }
    apply crypto_inv in H as (c' & _ & [(a3 & X & _)|(ce & X & Hc)]); [discriminate|].
    injection X as ->. exists ce. split; [reflexivity|]. right; right; right; eauto.
  Qed.

  Lemma add_tci_err c m l (w : world) e w' :
    length (tci_cumulative (c_tci c)) = tci_size cf ->
    add_tci_measurement C P co c m l w = (Err e, w') ->
    (e = InvalidHandle /\ c_state c <> Active) \/ (e = InvalidLocality /\ c_locality c <> l) \/
    no_extension cf co e.
  Proof.
    unfold add_tci_measurement. intros Hl.
    destruct (ctx_state_eqb (c_state c) Active) eqn:A; cbn [negb]; intros H.
    2:{ apply fail_inv in H as [H _]. injection H as ->. left. split; [reflexivity|]. apply ctx_state_eqb_neq; exact A. }
    destruct (N.eqb_spec (c_locality c) l) as [L|L]; cbn [negb] in H.
    2:{ apply fail_inv in H as [H _]. injection H as ->. right; left. auto. }
    right; right.
    apply bind_inv in H as [(a & w1 & E & H)|[(e' & E & H)|(k & E & H)]]; [| |discriminate].
    - destruct (Nat.eqb_spec (length (digest_bytes a)) (length (tci_cumulative (c_tci c)))) as [X|X]; cbn [negb] in H.
      + apply ret_inv in H as [H _]; discriminate.
      + apply fail_inv in H as [H _]. injection H as ->. right. split; [reflexivity|].
        exists [tci_cumulative (c_tci c); m], (digest_bytes a). rewrite <- Hl. split; [|exact X].
        apply (hashed_hash_of C P co). exists w, a, w1. auto.
    - injection H as ->. left. eapply hash_all_err; exact E.
  Qed.

  (** ** The measurement hash *)
  Definition overrun : Prop :=
    exists o b p n b' p', po_certificate_chain po o 2048 b p = (inl n, b', p') /\ (2048 < n mod 2 ^ 32)%N.

  Lemma iter_get_err l i e : iter_get_context cf l i = Err e -> forall Cf Pf Ov, blamed Cf Pf Ov e.
  Proof.
    unfold iter_get_context. destruct (nth_error l i).
    - destruct (_ || _)%bool; intros H; [injection H as <-|discriminate]; intros; exact Logic.I.
    - intros H; injection H as <-; intros; exact Logic.I.
  Qed.
  Lemma iter_new_loop_err l n : forall i k e, iter_new_loop cf n l i k = Err e -> forall Cf Pf Ov, blamed Cf Pf Ov e.
  Proof.
    induction n as [|n IH]; intros i k e; cbn [iter_new_loop]; [discriminate|].
    destruct (iter_get_context cf l i) as [c|e'|x] eqn:E; cbn [rbind]; [| |discriminate].
    - destruct (max_handles cf <? S k); [intros H; injection H as <-; intros; exact Logic.I|].
      destruct (c_parent c =? ROOT); [discriminate|]. apply IH.
    - intros H; injection H as <-. eapply iter_get_err; exact E.
  Qed.
  Lemma iter_next_err l it e it' : iter_next cf l it = (Some (Err e), it') -> forall Cf Pf Ov, blamed Cf Pf Ov e.
  Proof.
    unfold iter_next. destruct (it_done it); [discriminate|].
    destruct (it_path_len it <=? it_count it); [discriminate|].
    destruct (max_handles cf <=? it_count it).
    - intros H; injection H as <- _; intros; exact Logic.I.
    - destruct (iter_get_context cf l (it_front it)) as [c|e'|x] eqn:E; try discriminate.
      intros H; injection H as <- _. eapply iter_get_err; exact E.
  Qed.
  Lemma hash_nodes_blames Pf Ov n : forall l it i d,
    blames (hash_fault co) Pf Ov (hash_nodes cf C P co n l it i d).
  Proof.
    induction n as [|n IH]; intros l it i d; cbn [hash_nodes].
    - apply blames_lift; discriminate.
    - destruct (iter_next cf l it) as [[[c|e|k]|] it'] eqn:E.
      + blames_auto; [apply hash_update_blames|apply hash_update_blames|apply IH].
      + apply blames_fail. eapply iter_next_err; exact E.
      + apply blames_lift; discriminate.
      + apply blames_ret.
  Qed.
  Lemma hash_chain_blames Pf n : forall off buf,
    blames (hash_fault co) Pf overrun (hash_cert_chain C P co po n off buf).
  Proof.
    induction n as [|n IH]; intros off buf; cbn [hash_cert_chain].
    - apply blames_lift; discriminate.
    - intros w e w' H. destruct (@chain_call_spec C P po off max_chunk_size buf w) as (r & b & p' & E1 & E2).
      unfold bind at 1 in H. rewrite E2 in H. cbv beta iota in H. change max_chunk_size with 2048%N in E1.
      destruct r as [len|pe]; [|apply ret_inv in H as [H _]; discriminate].
      destruct (N.ltb_spec max_chunk_size (len mod 2 ^ 32)) as [L|L].
      + apply fail_inv in H as [H _]. injection H as ->. exists off, buf, (w_p w), len, b, p'. auto.
      + revert H. revert e w'. generalize (mkWorld (w_st w) (w_c w) p' (w_out w)).
        change (blames (hash_fault co) Pf overrun
          (crypto (co_hash_update co (firstn (N.to_nat (len mod 2 ^ 32)) (to_buf 2048 b))) ;;
           (if (2 ^ 32 <=? off + len mod 2 ^ 32)%N then lift (Crash CrashOverflow)
            else hash_cert_chain C P co po n (off + len mod 2 ^ 32) (to_buf 2048 b)))).
        apply blames_bind; [apply hash_update_blames|intros _].
        destruct (2 ^ 32 <=? off + len mod 2 ^ 32)%N; [apply blames_lift; discriminate|apply IH].
  Qed.
  Lemma cmh_blames i : blames (hash_fault co) (vendor_fault po) overrun (compute_measurement_hash cf C P co po i).
  Proof.
    unfold compute_measurement_hash.
    apply blames_bind; [apply hasher_blames|intros _].
    apply blames_bind; [apply hash_init_blames|intros _].
    apply blames_bind; [apply blames_get_st|intros s].
    apply blames_bind.
    { apply blames_lift. intros e. unfold iter_new.
      destruct (iter_new_loop cf (S (max_handles cf)) (st_contexts s) i 0) as [x|e'|k] eqn:E; cbn [rbind]; try discriminate.
      intros H; injection H as <-. eapply iter_new_loop_err; exact E. }
    intros it. apply blames_bind; [apply hash_nodes_blames|intros [info dice]].
    apply blames_bind.
    { destruct info; [|apply blames_ret]. apply blames_bind; [|intros; apply hash_update_blames].
      unfold internal_input_info, get_profile. blames_auto.
      - apply blames_platform. intros c e c' H. left; eauto.
      - apply blames_platform. intros c e c' H. right; eauto. }
    intros _. apply blames_bind.
    { destruct dice; [apply hash_chain_blames|apply blames_ret]. }
    intros _. apply hash_finish_blames.
  Qed.

  Lemma lineage_below s i cts c : lineage s i cts -> In c cts -> exists j, below s j i /\ at_slot s j c.
  Proof.
    intros (l & Hp & Fa) Hin.
    assert (exists j, In j l /\ at_slot s j c) as (j & Hj & Hc).
    { clear Hp. induction Fa as [|j d l cts Hd _ IH]; [contradiction|].
      destruct Hin as [<-|Hin]; [exists j; split; [left; reflexivity|exact Hd]|].
      destruct (IH Hin) as (k & Hk & Hkc). exists k. split; [right; exact Hk|exact Hkc]. }
    exists j. split; [exists l; auto|exact Hc].
  Qed.

  Lemma cmh_err i (w : world) x w' :
    wf cf (w_st w) -> live_at (w_st w) i ->
    compute_measurement_hash cf C P co po i w = (x, w') ->
    (exists dg, x = Ok dg) \/
    (exists e, x = Err e /\ no_measurement co po (w_st w) i e) \/
    (exists k, x = Crash k /\ (exists j c, below (w_st w) j i /\ at_slot (w_st w) j c /\ c_dice c = true) /\
               exists p, ~ chain_stops po (fuel cf) 0 (repeat 0%N 2048) p).
  Proof.
    intros W Hl H. pose proof (wf_forest _ _ W) as F.
    destruct (lineage_ex cf _ F _ Hl) as (cts & L).
    pose proof (cmh_blames i) as B.
    pose proof H as H2. apply (cmh_spec cf Hcf C P co po i cts) in H as [H|[(ce & ->)|[((c & Hc & Hi) & pe & ->)|[((c & Hc & Hd) & ->)|((c & Hc & Hd) & k & p & -> & Hs)]]]]; auto.
    - destruct H as (dg & c0 & c1 & c2 & ii & dd & -> & _). left; eauto.
    - apply B in H2. right; left. eexists; split; [reflexivity|]. left. eauto.
    - apply B in H2. right; left. eexists; split; [reflexivity|]. right; left.
      destruct (lineage_below _ _ _ _ L Hc) as (j & Hj & Hjc). eauto 10.
    - apply B in H2. right; left. eexists; split; [reflexivity|]. right; right.
      destruct (lineage_below _ _ _ _ L Hc) as (j & Hj & Hjc).
      split; [reflexivity|]. split; [eauto 10|]. exact H2.
    - right; right. destruct (lineage_below _ _ _ _ L Hc) as (j & Hj & Hjc). eauto 12.
  Qed.

  (** ** The commands *)
  Hypothesis Hk : keeps_size cg.

  Definition explained (cmd : command) (loc : N) (w : world) (r : result N) (w' : world) : Prop :=
    match r with
    | Ok _ => True
    | Err e => refusal cf co po cg cmd loc (w_st w) (w_st w') (length (w_out w)) e
    | Crash k => aborts cf po cg cmd loc (w_st w) k
    end.

  Lemma respond_explained cmd loc w bs w1 r w' :
    length (w_out w1) = length (w_out w) -> length bs <= fixed_size cf cmd ->
    respond C P bs w1 = (r, w') -> explained cmd loc w r w'.
  Proof.
    intros Lo Lb H. apply respond_inv in H as [_ [(_ & -> & _)|(L & -> & _)]]; [exact Logic.I|].
    left. split; [reflexivity|]. lia.
  Qed.

  Lemma get_profile_explained loc w r w' :
    exec_get_profile cf C P po w = (r, w') -> explained CmdGetProfile loc w r w'.
  Proof.
    unfold exec_get_profile. intros H. mstep H. mstep H.
    - pose proof (get_profile_keeps cf C P po _ _ _ _ E) as [_ Ko].
      destruct (profile_len _ _ _ _ _ _ _ _ E) as (rest & _ & Lb).
      eapply respond_explained; [|  |exact H]; [rewrite Ko; reflexivity|rewrite Lb; cbn; lia].
    - right. unfold get_profile in E.
      apply bind_inv in E as [(a0 & w1 & E1 & E)|[(e' & E1 & X)|(k & _ & X)]]; [| |discriminate].
      + apply bind_inv in E as [(a1 & w2 & E2 & E)|[(e' & E2 & X)|(k & _ & X)]]; [| |discriminate].
        * apply ret_inv in E as [E _]; discriminate.
        * apply platform_inv in E2 as (p' & _ & [(x & Y & _)|(pe & Y & Hf)]); [discriminate|].
          injection Y as ->. injection X as ->. exists pe. split; [reflexivity|]. right; eauto.
      + apply platform_inv in E1 as (p' & _ & [(x & Y & _)|(pe & Y & Hf)]); [discriminate|].
        injection Y as ->. injection X as ->. exists pe. split; [reflexivity|]. left; eauto.
    - exfalso; revert E; apply get_profile_nocrash.
  Qed.

  Lemma no_free_slot s : get_next_inactive_context_pos s = None -> full s.
  Proof. intros H. exact (proj1 (next_inactive_none s) H). Qed.

  Lemma init_explained f loc w r w' :
    wf cf (w_st w) -> exec_init cf C P co f loc w = (r, w') -> explained (CmdInitCtx f) loc w r w'.
  Proof.
    intros W. unfold exec_init. intros H. mstep H.
    unfold if_default, if_simulation, sup_simulation in H. rewrite !contains_bit in H. mstep H.
    - mstep H. right; left. split; [reflexivity|].
      apply orb_true_iff in B as [B|B]; apply andb_true_iff in B as [B1 B2]; [left; auto|right].
      split; [exact B1|]. unfold supports, SIMULATION. apply negb_true_iff in B2. congruence.
    - mstep H.
      + mstep H. right; right; left. split; [reflexivity|].
        destruct (N.testbit f 30), (N.testbit f 31); cbn in *; congruence.
      + mstep H.
        2:{ apply ok_or_inv in E as [(? & _ & X)|[E X]]; [discriminate|]. injection X as ->.
            right; right; right; left. split; [reflexivity|]. apply no_free_slot; exact E. }
        2:{ apply ok_or_inv in E as [(? & _ & X)|[E X]]; discriminate. }
        apply ok_or_inv in E as [(i & E & X)|[E X]]; [|discriminate]. injection X as <-.
        apply next_inactive_ok in E as [(c & Hc & _) _]. pose proof (nth_error_lt _ _ _ Hc) as Hlt.
        destruct (N.testbit f 30) eqn:B30.
        * mstep H. mstep H. mstep H. mstep H; [|cbn in G; unfold get_ctx in G; cbn in G; unfold at_slot in Hc; congruence].
          mstep H; [|cbn in L; lia].
          eapply respond_explained; [|  |exact H]; [reflexivity|]. rewrite length_new; [cbn; lia|reflexivity].
        * assert (B31 : N.testbit f 31 = true) by (destruct (N.testbit f 31); cbn in B0; congruence).
          mstep H. mstep H.
          2:{ right; right; right; right. split; [exact B31|]. eapply gen_err; exact E. }
          2:{ exfalso; revert E; apply generate_new_handle_nocrash. }
          pose proof (generate_new_handle_keeps C P co _ _ _ E) as [K Ko].
          apply generate_new_handle_ok in E as (_ & Hlen & _).
          mstep H. mstep H; [|rewrite K in G; unfold get_ctx, at_slot in *; congruence].
          mstep H; [|rewrite K in L; lia].
          eapply respond_explained; [|  |exact H]; [cbn [w_out]; rewrite Ko; reflexivity|].
          rewrite length_new; [cbn; lia|exact Hlen].
  Qed.

  Lemma lookup_explained s h loc e : get_active_context_pos s h loc = Err e -> not_yours s h loc e.
  Proof.
    intros E. pose proof (lookup_spec s h loc) as L. rewrite E in L.
    destruct e; try contradiction.
    - split; [apply L|]. right. split; [reflexivity|apply L].
    - split; [|left; split; [reflexivity|exact L]].
      intros i (c & Hc & Ha & Hl & _). exact (L i c Hc Ha Hl).
  Qed.
  Lemma lookup_idx_explained s h loc e : get_active_context_and_idx s h loc = Err e -> not_yours s h loc e.
  Proof.
    unfold get_active_context_and_idx. destruct (get_active_context_pos s h loc) as [i|e'|k] eqn:E; cbn [rbind].
    - apply lookup_ok in E as [(c & Hc & _) _]. rewrite (Hc : get_ctx s i = Some c). discriminate.
    - intros X. injection X as <-. apply lookup_explained; exact E.
    - discriminate.
  Qed.
  Lemma lookup_idx_nocrash s h loc k : get_active_context_and_idx s h loc <> Crash k.
  Proof.
    unfold get_active_context_and_idx. destruct (get_active_context_pos s h loc) as [i|e'|k'] eqn:E; cbn [rbind].
    - destruct (get_ctx s i); discriminate.
    - discriminate.
    - exfalso; eapply lookup_nocrash; exact E.
  Qed.

  Lemma destroy_explained h loc w r w' :
    wf cf (w_st w) -> exec_destroy cf C P h loc w = (r, w') -> explained (CmdDestroyCtx h) loc w r w'.
  Proof.
    intros W. unfold exec_destroy. intros H. mstep H.
    destruct (get_active_context_pos (w_st w) h loc) as [i|e|k] eqn:E.
    - apply lookup_ok in E. destruct (destroy_total cf Hcf h (w_st w) loc i (wf_forest _ _ W) E) as (s' & D).
      rewrite D in H. change (lift (Ok s')) with (@ret C P _ s') in H. mstep H. mstep H.
      eapply respond_explained; [|  |exact H]; [reflexivity|]. rewrite length_ok_hdr. cbn; lia.
    - apply lookup_explained in E as E'. unfold destroy_context, get_active_context_and_idx in H. rewrite E in H.
      cbn [rbind] in H. inversion H; subst. right. exact E'.
    - exfalso; eapply lookup_nocrash; exact E.
  Qed.

  Lemma chain_explained off size loc w r w' :
    exec_get_chain cf C P po off size w = (r, w') -> explained (CmdGetCertificateChain off size) loc w r w'.
  Proof.
    unfold exec_get_chain. intros H. mstep H.
    - apply N.ltb_lt in B. mstep H. right; left. split; [reflexivity|exact B].
    - destruct (@chain_call_spec C P po off size (repeat 0%N (N.to_nat max_chunk_size)) w) as (r0 & b & p' & E1 & E2).
      unfold bind at 1 in H. rewrite E2 in H. cbv beta iota in H.
      destruct r0 as [len|pe].
      + eapply respond_explained; [|  |exact H]; [reflexivity|].
        unfold cert_chain_resp_bytes. rewrite !app_length, length_ok_hdr, length_le_bytes, length_to_buf.
        apply Nat.leb_le. reflexivity.
      + mstep H. right; right. split; [apply N.ltb_ge in B; exact B|]. exists pe. eauto 10.
  Qed.

  Lemma other_non_default_true s loc t :
    other_non_default s loc t = true ->
    exists i c, at_slot s i c /\ c_state c = Active /\ c_locality c = loc /\ i <> t.
  Proof.
    unfold other_non_default. intros H. apply existsb_exists in H as ([i c] & Hin & H).
    apply in_enumerate in Hin. cbn [fst snd] in H. rewrite !andb_true_iff, !negb_true_iff in H.
    destruct H as (((A & L) & _) & Ne). exists i, c. split; [exact Hin|].
    split; [apply ctx_state_eqb_eq; exact A|]. split; [apply N.eqb_eq; exact L|]. apply Nat.eqb_neq; exact Ne.
  Qed.

  Lemma rotate_explained h f loc w r w' :
    wf cf (w_st w) -> exec_rotate cf C P co h f loc w = (r, w') -> explained (CmdRotateCtx h f) loc w r w'.
  Proof.
    intros W. unfold exec_rotate. intros H. mstep H.
    unfold sup_rotate, rf_target_default in H. rewrite !contains_bit in H. mstep H.
    - mstep H. right; left. split; [reflexivity|]. unfold supports, ROTATE_CONTEXT.
      apply negb_true_iff in B. congruence.
    - mstep H; [|right; right; left; apply lookup_explained; exact E|exfalso; eapply lookup_nocrash; exact E].
      apply lookup_ok in E. pose proof E as [(c & Hc & Ha & Hl & Hh) _]. pose proof (nth_error_lt _ _ _ Hc) as Hlt.
      mstep H.
      + mstep H. apply andb_true_iff in B0 as [B1 B2].
        right; right; right; left. split; [reflexivity|]. split; [exact B1|]. exists a.
        apply orb_true_iff in B2 as [B2|B2].
        * destruct (get_active_context_pos (w_st w) default_handle loc) as [i|e|k] eqn:D; try discriminate.
          apply lookup_ok in D as [(x & Hx & Xa & Xl & Xh) _]. exists i, x. auto 10.
        * apply other_non_default_true in B2 as (i & x & Hx & Xa & Xl & Ne). exists i, x. auto 10.
      + destruct (N.testbit f 31) eqn:B31.
        * mstep H. mstep H; [|unfold get_ctx, at_slot in *; congruence].
          mstep H; [|lia].
          eapply respond_explained; [|  |exact H]; [reflexivity|]. rewrite length_new; [cbn; lia|reflexivity].
        * mstep H.
          2:{ right; right; right; right. split; [exact B31|]. eapply gen_err; exact E0. }
          2:{ exfalso; revert E0; apply generate_new_handle_nocrash. }
          pose proof (generate_new_handle_keeps C P co _ _ _ E0) as [K Ko].
          apply generate_new_handle_ok in E0 as (_ & Hlen & _).
          mstep H; [|rewrite K in G; unfold get_ctx, at_slot in *; congruence].
          mstep H; [|rewrite K in L; lia].
          eapply respond_explained; [|  |exact H]; [cbn [w_out]; rewrite Ko; reflexivity|].
          rewrite length_new; [cbn; lia|exact Hlen].
  Qed.

  Lemma sign_inputs_explained c :
    match sign_inputs c with
    | Ok (h, lb, d) => presents (CmdSign c) h
    | Err e => e = InvalidArgument /\ exists r, c = SignMldsa87Raw r /\ (N.of_nat (length (sr_raw r)) < sr_size r)%N
    | Crash _ => False
    end.
  Proof.
    destruct c; cbn [sign_inputs presents]; try reflexivity.
    destruct (N.leb_spec (sr_size c) (N.of_nat (length (sr_raw c)))); [reflexivity|]. eauto.
  Qed.

  Lemma sign_explained c loc w r w' :
    wf cf (w_st w) -> exec_sign cf C P co po c loc w = (r, w') -> explained (CmdSign c) loc w r w'.
  Proof.
    intros W. unfold exec_sign. intros H. pose proof (sign_inputs_explained c) as SI.
    destruct (sign_inputs c) as [[[h lb] da]|e|k]; [| |contradiction].
    2:{ inversion H; subst. right; left. exact SI. }
    change (lift (Ok (h, lb, da))) with (@ret C P _ (h, lb, da)) in H. mstep H. mstep H.
    mstep H; [|right; right; exists h; split; [exact SI|]; left; apply lookup_explained; exact E
              |exfalso; eapply lookup_nocrash; exact E].
    apply lookup_ok in E. pose proof E as [(x & Hx & Ha & Hl & Hh) _]. pose proof (nth_error_lt _ _ _ Hx) as Hlt.
    mstep H; [|unfold get_ctx, at_slot in *; congruence].
    assert (c0 = x) by (unfold get_ctx, at_slot in *; congruence). subst c0.
    assert (Why : forall e (w1 : world),
      ((e = InvalidArgument /\ c_type x = Simulation) \/ no_measurement co po (w_st w) a e \/
       (exists ce, e = CryptoErr ce /\ key_fault co ce) \/
       (e = InvalidArgument /\ exists d b sg b', co_signer_sign co d b = (inl sg, b') /\
                 match sg with
                 | SigEcdsa256 _ _ => feat_p256 cf = false
                 | SigEcdsa384 _ _ => feat_p384 cf = false
                 | SigMldsa _ => feat_mldsa cf = false
                 end) \/
       (c_handle x <> repeat 0%N 16 /\ no_handle co (w_st w1) e)) ->
      explained (CmdSign c) loc w (Err e) w1).
    { intros e w1 K. right; right. exists h. split; [exact SI|]. right. exists a, x. auto. }
    mstep H.
    { mstep H. apply Why. left. split; [reflexivity|]. apply ctx_type_eqb_eq; exact B. }
    assert (La : live_at (w_st w) a) by (exists x; split; [exact Hx|]; unfold live; congruence).
    mstep H.
    - pose proof (do_sign_keeps cf C P co po _ _ _ _ _ _ E0) as [K Ko].
      destruct (signature_bytes cf a0) as [sb|] eqn:SB.
      + mstep H; [|rewrite K in G0; unfold get_ctx, at_slot in *; congruence].
        rewrite K in G0. assert (c0 = x) by (unfold get_ctx, at_slot in *; congruence). subst c0.
        mstep H.
        2:{ apply Why. do 4 right. eapply roll_err; exact E1. }
        2:{ exfalso; revert E1; apply roll_handle_nocrash. }
        pose proof (roll_handle_keeps C P co _ _ _ _ E1) as [K1 Ko1]. apply roll_handle_ok in E1.
        mstep H; [|rewrite K1, K in L; lia].
        eapply respond_explained; [|  |exact H]; [cbn [w_out]; congruence|].
        assert (L16 : length (c_handle a1) = 16) by (eapply rolled_len; [|exact E1]; eapply handle_len; eauto).
        unfold sign_resp_bytes. rewrite !app_length, length_ok_hdr, L16.
        apply signature_len in SB. cbn [fixed_size] in *. lia.
      + mstep H. apply Why. do 3 right; left. split; [reflexivity|].
        unfold do_sign in E0.
        apply bind_inv in E0 as [(d & w2 & _ & E0)|[(e & _ & X)|(k & _ & X)]]; [|discriminate|discriminate].
        apply bind_inv in E0 as [(u & w3 & _ & E0)|[(e & _ & X)|(k & _ & X)]]; [|discriminate|discriminate].
        apply bind_inv in E0 as [(u2 & w4 & _ & E0)|[(e & _ & X)|(k & _ & X)]]; [|discriminate|discriminate].
        apply crypto_inv in E0 as (c' & _ & [(sg & X & Hs)|(ce & X & _)]); [|discriminate].
        injection X as <-. exists da, (w_c w4), a0, c'. split; [exact Hs|].
        destruct a0; cbn [signature_bytes] in SB; [destruct (feat_p256 cf)|destruct (feat_p384 cf)|destruct (feat_mldsa cf)]; congruence.
    - apply Why. unfold do_sign in E0.
      apply bind_inv in E0 as [(d & w2 & E1 & E0)|[(e & E1 & X)|(k & E1 & X)]]; [| |discriminate].
      2:{ injection X as ->. apply cmh_err in E1 as [(dg & X)|[(e' & X & K)|(k & X & _)]]; auto; try discriminate.
          injection X as ->. auto. }
      apply bind_inv in E0 as [(u & w3 & E2 & E0)|[(e & E2 & X)|(k & E2 & X)]]; [| |discriminate].
      2:{ injection X as ->. apply crypto_inv in E2 as (c' & _ & [(? & X & _)|(ce & X & Hf)]); [discriminate|].
          injection X as ->. right; right; left. exists ce. split; [reflexivity|]. left; eauto. }
      apply bind_inv in E0 as [(u2 & w4 & E3 & E0)|[(e & E3 & X)|(k & E3 & X)]]; [| |discriminate].
      2:{ injection X as ->. apply crypto_inv in E3 as (c' & _ & [(? & X & _)|(ce & X & Hf)]); [discriminate|].
          injection X as ->. right; right; left. exists ce. split; [reflexivity|]. right; left; eauto. }
      apply crypto_inv in E0 as (c' & _ & [(? & X & _)|(ce & X & Hf)]); [discriminate|].
      injection X as ->. right; right; left. exists ce. split; [reflexivity|]. right; right; eauto.
    - unfold do_sign in E0.
      apply bind_inv in E0 as [(d & w2 & E1 & E0)|[(e & E1 & X)|(k & E1 & X)]]; [|discriminate|].
      + exfalso.
        apply bind_inv in E0 as [(u & w3 & E2 & E0)|[(e & E2 & X)|(k & E2 & X)]];
          [|discriminate|eapply nocrash_crypto; exact E2].
        apply bind_inv in E0 as [(u2 & w4 & E3 & E0)|[(e & E3 & X)|(k & E3 & X)]];
          [|discriminate|eapply nocrash_crypto; exact E3].
        eapply nocrash_crypto; exact E0.
      + injection X as <-. apply cmh_err in E1 as [(dg & X)|[(e' & X & _)|(k' & X & K & Kp)]]; auto; try discriminate.
        exists h, a. auto.
  Qed.

  Lemma run_cert_result k a o (w : world) r w' :
    run_cert C P cg k a o w = (r, w') ->
    exists c' p' out', cg k a o (w_st w) (w_c w) (w_p w) (w_out w) = (r, c', p', out').
  Proof.
    unfold run_cert. destruct (cg k a o (w_st w) (w_c w) (w_p w) (w_out w)) as [[[r0 c0] p0] o0].
    intros H; injection H as -> _; eauto.
  Qed.

  Lemma certify_explained cmd loc w r w' :
    wf cf (w_st w) -> exec_certify cf C P co cg cmd loc w = (r, w') ->
    explained (CmdCertifyKey cmd) loc w r w'.
  Proof.
    intros W. unfold exec_certify. intros H. set (h := certify_inner cmd) in *.
    assert (exists k, cmd = k h /\ (k = CertifyP256 \/ k = CertifyP384 \/ k = CertifyMldsa87)) as (kk & Ek & Hkk)
      by (destruct cmd; subst h; cbn [certify_inner]; eexists; split; try reflexivity; auto).
    mstep H.
    mstep H; [|right; exists kk, h; split; [exact Ek|]; split; [exact Hkk|]; left; apply lookup_explained; exact E
              |exfalso; eapply lookup_nocrash; exact E].
    apply lookup_ok in E. pose proof E as [(x & Hx & Ha & Hl & Hh) _]. pose proof (nth_error_lt _ _ _ Hx) as Hlt.
    mstep H; [|unfold get_ctx, at_slot in *; congruence].
    assert (c = x) by (unfold get_ctx, at_slot in *; congruence). subst c.
    unfold sup_x509, sup_csr in H. rewrite !contains_bit in H.
    set (args := {| ca_handle := ck_handle h; ca_locality := loc;
                     ca_cdi_label := str_DPE; ca_key_label := ck_label h;
                     ca_context := key_context (prof cf); ca_ueid := ck_label h;
                     ca_critical := flag_dice_critical (st_flags (w_st w)) |}) in *.
    assert (Hsz : certify_hdr_size (certify_profile cmd) = fixed_size cf (CmdCertifyKey cmd))
      by (destruct cmd; apply Nat.eqb_eq; reflexivity).
    assert (Why : forall e (w1 : world),
      (e = ArgumentNotSupported /\ ((ck_format h = 0%N /\ ~ supports (w_st w) X509) \/
                                    (ck_format h = 1%N /\ ~ supports (w_st w) CSR))) \/
      (e = InvalidArgument /\ ((ck_format h = 0%N /\ c_x509 x = false) \/ (1 < ck_format h)%N)) \/
      (exists a b p out c' p' out', length out = length (w_out w) /\ (ck_format h <= 1)%N /\
         ca_handle a = ck_handle h /\ ca_locality a = loc /\ ca_ueid a = ck_label h /\
         cg (if (ck_format h =? 0)%N then KindX509 else KindCsr) a (fixed_size cf (CmdCertifyKey cmd)) (w_st w) b p out
         = (Err e, c', p', out')) \/
      (c_handle x <> repeat 0%N 16 /\ no_handle co (w_st w1) e) \/
      (e = InvalidArgument /\ exists kd a b p out cr c' p' out',
         cg kd a (fixed_size cf (CmdCertifyKey cmd)) (w_st w) b p out = (Ok cr, c', p', out') /\
         match cmd, cr_pubkey cr with
         | CertifyP256 _, PkEcdsa256 _ _ | CertifyP384 _, PkEcdsa384 _ _
         | CertifyMldsa87 _, PkMldsa _ => False
         | _, _ => True
         end) -> explained (CmdCertifyKey cmd) loc w (Err e) w1).
    { intros e w1 K. right. exists kk, h. split; [exact Ek|]. split; [exact Hkk|]. right. exists a, x. auto. }
    assert (Fin : forall kd cr (w2 : world),
      run_cert C P cg kd args (certify_hdr_size (certify_profile cmd)) w = (Ok cr, w2) ->
      (let! ctx := st_index C P a in
      let! ctx := roll_handle C P co ctx in
      st_assign C P a ctx ;;
      match pubkey_bytes (certify_profile cmd) (cr_pubkey cr) with
      | None => fail InvalidArgument
      | Some pk =>
          write_out 0 (certify_hdr_bytes cf (c_handle ctx) pk (cr_size cr)) ;;
          ret (N.of_nat (certify_hdr_size (certify_profile cmd)) + cr_size cr)%N
      end) w2 = (r, w') -> explained (CmdCertifyKey cmd) loc w r w').
    { clear H. intros kd cr w2 Hr H. pose proof (run_cert_inv _ _ _ _ _ _ _ _ _ Hr) as Hst.
      pose proof (run_cert_len _ _ _ Hk _ _ _ _ _ _ Hr) as Hlo.
      apply run_cert_result in Hr as (c' & p' & out' & Hr).
      mstep H; [|rewrite Hst in G0; unfold get_ctx, at_slot in *; congruence].
      rewrite Hst in G0. assert (c = x) by (unfold get_ctx, at_slot in *; congruence). subst c.
      mstep H.
      2:{ apply Why. do 3 right; left. eapply roll_err; exact E0. }
      2:{ exfalso; revert E0; apply roll_handle_nocrash. }
      pose proof (roll_handle_keeps C P co _ _ _ _ E0) as [K1 Ko1]. apply roll_handle_ok in E0.
      mstep H; [|rewrite K1, Hst in L; lia].
      assert (L16 : length (c_handle a0) = 16) by (eapply rolled_len; [|exact E0]; eapply handle_len; eauto).
      destruct (pubkey_bytes (certify_profile cmd) (cr_pubkey cr)) as [pk|] eqn:PK.
      - mstep H.
        + mstep H. exact Logic.I.
        + apply write_out_inv in E1 as (_ & _ & _ & [(_ & X & _)|(L1 & X & _)]); [discriminate|].
          injection X as ->. left. split; [reflexivity|].
          rewrite (certify_bytes_len _ _ _ _ _ _ L16 PK) in L1. cbn [w_out plus] in L1. rewrite Ko1, Hlo in L1.
          assert (certify_hdr_size (certify_profile cmd) <= fixed_size cf (CmdCertifyKey cmd)); [|lia].
          destruct cmd; apply Nat.leb_le; reflexivity.
        + exfalso; revert E1; apply nocrash_write_out.
      - mstep H. apply Why. do 4 right. split; [reflexivity|].
        exists kd, args, (w_c w), (w_p w), (w_out w), cr, c', p', out'.
        split; [rewrite <- Hsz; exact Hr|].
        destruct cmd; cbn [certify_profile] in PK; destruct (cr_pubkey cr); cbn [pubkey_bytes] in PK; try exact Logic.I; discriminate. }
    mstep H.
    { mstep H. apply Why. left. apply andb_true_iff in B as [B1 B2]. apply N.eqb_eq in B1. apply negb_true_iff in B2.
      split; [reflexivity|]. left. split; [exact B1|]. unfold supports, X509. congruence. }
    mstep H.
    { mstep H. apply Why. right; left. apply andb_true_iff in B0 as [B1 B2]. apply N.eqb_eq in B1. apply negb_true_iff in B2.
      auto. }
    mstep H.
    { mstep H. apply Why. left. apply andb_true_iff in B1 as [B1 B2]. apply N.eqb_eq in B1. apply negb_true_iff in B2.
      split; [reflexivity|]. right. split; [exact B1|]. unfold supports, CSR. congruence. }
    rewrite Hl, N.eqb_refl in H. cbn [negb] in H.
    destruct (N.eqb_spec (ck_format h) 0) as [F0|F0].
    - mstep H.
      + eapply Fin; eauto.
      + apply run_cert_result in E0 as (c' & p' & out' & E0). apply Why. right; right; left.
        rewrite <- Hsz. exists args, (w_c w), (w_p w), (w_out w), c', p', out'. split; [reflexivity|]. split; [lia|]. do 3 (split; [reflexivity|]). exact E0.
      + apply run_cert_result in E0 as (c' & p' & out' & E0). unfold explained, aborts. eauto 12.
    - destruct (N.eqb_spec (ck_format h) 1) as [F1|F1].
      + mstep H.
        * eapply Fin; eauto.
        * apply run_cert_result in E0 as (c' & p' & out' & E0). apply Why. right; right; left.
          rewrite <- Hsz. exists args, (w_c w), (w_p w), (w_out w), c', p', out'. split; [reflexivity|]. split; [lia|]. do 3 (split; [reflexivity|]). exact E0.
        * apply run_cert_result in E0 as (c' & p' & out' & E0). unfold explained, aborts. eauto 12.
      + mstep H. apply Why. right; left. split; [reflexivity|]. right. lia.
  Qed.

  Lemma update_explained u loc w r w' :
    wf cf (w_st w) -> exec_update cf C P co u loc w = (r, w') ->
    explained (CmdUpdateContextMeasurement u) loc w r w'.
  Proof.
    intros W. unfold exec_update. intros H. mstep H.
    { mstep H. right; left. split; [reflexivity|]. apply handle_is_default_eq; exact B. }
    apply handle_is_default_neq in B. mstep H.
    destruct (get_active_context_pos (w_st w) (uc_parent_handle u) loc) as [a|e|k] eqn:E.
    2:{ inversion H; subst. right; right; left. split; [reflexivity|]. apply (lookup_explained _ _ _ _ E). }
    2:{ exfalso; eapply lookup_nocrash; exact E. }
    change (lift (Ok a)) with (@ret C P _ a) in H. mstep H.
    apply lookup_ok in E. pose proof E as [(x & Hx & Ha & Hl & Hh) _]. pose proof (nth_error_lt _ _ _ Hx) as Hlt.
    mstep H; [|unfold get_ctx, at_slot in *; congruence].
    assert (c = x) by (unfold get_ctx, at_slot in *; congruence). subst c.
    assert (Why : forall e (w1 : world),
      (e = InvalidArgument /\
            forall i c, child_of (w_st w) a i -> at_slot (w_st w) i c -> c_state c = Active -> tci_type (c_tci c) <> uc_tci_type u) \/
       no_extension cf co e \/ no_handle co (w_st w1) e ->
      explained (CmdUpdateContextMeasurement u) loc w (Err e) w1).
    { intros e w1 K. right; right; right. exists a. auto. }
    mstep H.
    2:{ apply ok_or_inv in E0 as [(? & _ & X)|[E0 X]]; [discriminate|]. injection X as ->.
        apply Why. left. split; [reflexivity|]. intros i c Hch Hc Hca Ht.
        apply (in_children cf Hcf (w_st w) a x i (wf_forest _ _ W) Hx) in Hch.
        pose proof (find_none _ _ E0 _ Hch) as Q. cbv beta in Q. rewrite (Hc : get_ctx (w_st w) i = Some c) in Q.
        rewrite Hca, Ht, N.eqb_refl in Q. discriminate. }
    2:{ apply ok_or_inv in E0 as [(? & _ & X)|[_ X]]; discriminate. }
    apply ok_or_inv in E0 as [(ch & Hch & X)|[_ X]]; [|discriminate]. injection X as <-.
    apply find_some in Hch as [Hch1 Hch2]. cbv beta in Hch2.
    destruct (get_ctx (w_st w) a0) as [cc|] eqn:Gc; [|discriminate].
    apply andb_true_iff in Hch2 as [Hca _]. apply ctx_state_eqb_eq in Hca.
    mstep H; [|congruence]. assert (c = cc) by congruence. subst c.
    pose proof (nth_error_lt _ _ _ Gc) as Hltc.
    assert (Hcl : length (tci_cumulative (c_tci cc)) = tci_size cf)
      by (apply (so_cumulative _ _ _ (wf_slot _ _ W _ _ Gc))).
    mstep H.
    2:{ apply Why. right; left. apply add_tci_err in E0 as [[_ X]|[[_ X]|X]]; auto; congruence. }
    2:{ exfalso; revert E0; apply add_tci_nocrash. }
    pose proof (add_tci_keeps C P co _ _ _ _ _ _ E0) as [K0 Ko0].
    apply add_tci_ok in E0 as (_ & _ & d & Hd & Hdl & ->).
    mstep H; [|rewrite K0 in G1; congruence].
    rewrite K0 in G1. assert (c = x) by congruence. subst c.
    mstep H.
    2:{ apply Why. right; right. eapply roll_err; exact E0. }
    2:{ exfalso; revert E0; apply roll_handle_nocrash. }
    pose proof (roll_handle_keeps C P co _ _ _ _ E0) as [K1 Ko1]. apply roll_handle_ok in E0.
    mstep H; [|rewrite K1, K0 in L; lia].
    mstep H.
    2:{ apply Why. right; right. eapply roll_err; exact E1. }
    2:{ exfalso; revert E1; apply roll_handle_nocrash. }
    pose proof (roll_handle_keeps C P co _ _ _ _ E1) as [K2 Ko2]. apply roll_handle_ok in E1.
    cbn [w_st w_out] in *.
    mstep H.
    2:{ exfalso. rewrite K2, K1, K0 in L0. cbn in L0. rewrite length_upd in L0. lia. }
    eapply respond_explained; [|  |exact H]; [cbn [w_out]; congruence|].
    rewrite length_two; [cbn; lia| |].
    - eapply rolled_len; [|exact E1]; cbn; eapply handle_len; eauto.
    - eapply rolled_len; [|exact E0]; eapply handle_len; eauto.
  Qed.

  (** ** DeriveContext *)
  Lemma bad_args_explained s d p pc :
    derive_bad_args pc (dc_flags d) = true -> bad_request s d p pc.
  Proof.
    unfold derive_bad_args, bad_request, df_allow_x509, df_export_cdi, df_create_cert, df_recursive, df_change_locality,
      df_retain_parent, df_allow_recursive. rewrite !contains_bit.
    rewrite !orb_true_iff, !andb_true_iff, !negb_true_iff, ctx_type_eqb_eq. tauto.
  Qed.

  Lemma not_unique_explained s l ty :
    tci_type_unique s l ty = Ok false -> exists i c, In i l /\ at_slot s i c /\ tci_type (c_tci c) = ty.
  Proof.
    induction l as [|k l IH]; cbn [tci_type_unique]; [discriminate|].
    destruct (get_ctx s k) as [ck|] eqn:G; cbn [ok_or rbind]; [|discriminate].
    destruct (N.eqb_spec (tci_type (c_tci ck)) ty) as [X|X]; intros H.
    - exists k, ck. split; [left; reflexivity|]. auto.
    - destruct (IH H) as (i & c & Hin & Hc & Ht). exists i, c. split; [right; exact Hin|auto].
  Qed.
  Lemma unique_total s l ty : (forall i, In i l -> exists c, at_slot s i c) ->
    exists b, tci_type_unique s l ty = Ok b.
  Proof.
    induction l as [|k l IH]; cbn [tci_type_unique]; intros H; [eauto|].
    destruct (H k (or_introl eq_refl)) as (c & Hc). rewrite (Hc : get_ctx s k = Some c). cbn [ok_or rbind].
    destruct (N.eqb (tci_type (c_tci c)) ty); [eauto|]. apply IH. intros i Hi. apply H; right; exact Hi.
  Qed.

  Lemma unsafe_explained d s p target :
    safe_to_make_child s (dc_flags d) p target = false -> unsafe_child d target s p.
  Proof.
    unfold safe_to_make_child, unsafe_child, df_make_default. rewrite contains_bit.
    destruct (N.testbit (dc_flags d) 28) eqn:MD.
    - unfold safe_to_make_default, count_contexts. unfold df_retain_parent. rewrite contains_bit.
      pose proof (lookup_spec s default_handle target) as LS. intros H.
      destruct (filter (active_in target) (st_contexts s)) as [|x [|y rest]] eqn:Fi; cbn [length] in H.
      + destruct (get_active_context_pos s default_handle target) as [i|e|k]; try discriminate H.
        destruct LS as [(c & Hc & A & L & Hh) _]. assert (X : In c []); [|destruct X].
        rewrite <- Fi. apply filter_In. split; [eapply nth_error_In; exact Hc|apply active_in_iff; auto].
      + assert (Hx : In x (filter (active_in target) (st_contexts s))) by (rewrite Fi; left; reflexivity).
        apply filter_In in Hx as [Hx Hact]. apply In_nth_error in Hx as [i Hi]. apply active_in_iff in Hact as [A L].
        exists i, x. split; [exact Hi|]. split; [exact A|]. split; [exact L|].
        destruct (get_active_context_pos s default_handle target) as [j|e|k].
        * destruct LS as [(c & Hc & A' & L' & Hh) _].
          assert (i = j).
          { destruct (Nat.eq_dec i j) as [|Ne]; [assumption|]. exfalso.
            assert (2 <= length (filter (active_in target) (st_contexts s))).
            { eapply (count_filter_pos _ _ i j x c); eauto; apply active_in_iff; auto. }
            rewrite Fi in H0. cbn in H0. lia. }
          subst j. destruct (Nat.eqb_spec i p) as [->|]; [|auto].
          apply negb_false_iff in H. auto.
        * right; left. intros Hh. destruct e; try contradiction; [|exact (LS i x Hi A L)].
          destruct LS as [_ LS]. apply (LS i). exists x. auto.
        * contradiction.
      + assert (Q : exists i c, at_slot s i c /\ c_state c = Active /\ c_locality c = target /\ i <> p).
        { assert (Hx : In x (st_contexts s) /\ active_in target x = true)
            by (apply filter_In; rewrite Fi; left; reflexivity).
          assert (Z : exists i j x y, i <> j /\ at_slot s i x /\ at_slot s j y /\ active_in target x = true /\ active_in target y = true).
          { clear -Fi. unfold at_slot. revert x y rest Fi. induction (st_contexts s) as [|a l IH]; cbn [filter]; intros x y rest Fi; [discriminate|].
            destruct (active_in target a) eqn:Aa.
            - injection Fi as -> Fi. assert (Hy : In y (filter (active_in target) l)) by (rewrite Fi; left; reflexivity).
              apply filter_In in Hy as [Hy Ay]. apply In_nth_error in Hy as [j Hj].
              exists 0, (S j), x, y. split; [lia|]. auto.
            - destruct (IH _ _ _ Fi) as (i & j & x' & y' & Ne & Hi & Hj & Ax & Ay).
              exists (S i), (S j), x', y'. split; [lia|]. auto. }
          destruct Z as (i & j & x' & y' & Ne & Hi & Hj & Ax & Ay). apply active_in_iff in Ax as [A1 L1]. apply active_in_iff in Ay as [A2 L2].
          destruct (Nat.eq_dec i p) as [->|N1]; [exists j, y'; auto|exists i, x'; auto]. }
        destruct Q as (i & c & Hc & A & L & Ne). exists i, c. auto.
    - unfold safe_to_make_non_default, df_retain_parent. rewrite contains_bit. intros H.
      destruct (get_active_context_pos s default_handle target) as [j|e|k] eqn:E; try discriminate.
      apply lookup_ok in E. exists j. split; [exact E|].
      destruct (Nat.eqb_spec j p) as [->|]; [|auto]. apply negb_false_iff in H. auto.
  Qed.

  Lemma derive_explained d loc w r w' :
    wf cf (w_st w) -> exec_derive cf C P co po cg d loc w = (r, w') ->
    explained (CmdDeriveContext d) loc w r w'.
  Proof.
    intros W. unfold exec_derive. intros H. mstep H.
    mstep H; [mstep H; right; left; split; [reflexivity|]; apply unsupported_iff; exact B|].
    mstep H; [|right; right; left; apply lookup_idx_explained; exact E
              |exfalso; eapply lookup_idx_nocrash; exact E].
    destruct a as [pc p]. apply lookup_idx_ok in E as [Hf Hpc].
    pose proof Hf as [(x & Hx & Ha & Hl & Hh) _]. assert (x = pc) by (unfold at_slot in *; congruence). subst x.
    pose proof (nth_error_lt _ _ _ Hpc) as Hlt.
    set (target := if N.testbit (dc_flags d) 27 then dc_target_locality d else loc).
    assert (Why : forall e (w1 : world),
      ((e = InvalidArgument /\ bad_request (w_st w) d p pc) \/
           if N.testbit (dc_flags d) 24 then
             (e = InvalidArgument /\ tci_type (c_tci pc) <> dc_tci_type d) \/
             (e = InvalidLocality /\ target <> loc) \/
             no_extension cf co e \/
             (c_handle pc <> repeat 0%N 16 /\ no_handle co (w_st w1) e)
           else
             (N.testbit (dc_flags d) 29 = true /\ c_handle pc <> repeat 0%N 16 /\ no_handle co (w_st w1) e) \/
             if N.testbit (dc_flags d) 23 then
               (exists pe, e = PlatformErr pe /\ ueid_fault po pe) \/
               (exists a b p out c' p' out', length out = length (w_out w) /\
                  ca_handle a = dc_handle d /\ ca_locality a = loc /\ length (ca_ueid a) <= 48 /\
                  cg KindExported a 80 (w_st w) b p out = (Err e, c', p', out'))
             else
               (e = MaxTcis /\ full (w_st w)) \/
               (e = InvalidArgument /\ unsafe_child d target (w_st w) p) \/
               no_extension cf co e \/
               (N.testbit (dc_flags d) 28 = false /\ no_handle co (w_st w1) e)) ->
      explained (CmdDeriveContext d) loc w (Err e) w1).
    { intros e w1 K. right; right; right. exists p, pc. auto. }
    mstep H; [mstep H; apply Why; left; split; [reflexivity|]; apply bad_args_explained; exact B0|].
    replace (if df_change_locality (dc_flags d) then dc_target_locality d else loc) with target in H
      by (unfold df_change_locality; rewrite contains_bit; reflexivity).
    assert (B23 : N.testbit (dc_flags d) 23 = true -> N.testbit (dc_flags d) 22 = true /\ N.testbit (dc_flags d) 24 = false).
    { intros X. unfold derive_bad_args, df_export_cdi, df_create_cert, df_recursive in B0.
      rewrite !contains_bit, X in B0. repeat (apply orb_false_iff in B0 as [B0 ?]).
      clear H Why. destruct (N.testbit (dc_flags d) 22), (N.testbit (dc_flags d) 24); cbn [andb orb negb] in *; try discriminate; auto. }
    unfold df_recursive, df_create_cert, df_export_cdi in H. rewrite !contains_bit in H.
    destruct (N.testbit (dc_flags d) 24) eqn:B24.
    - (* recursive *)
      assert (X23 : N.testbit (dc_flags d) 23 = false).
      { destruct (N.testbit (dc_flags d) 23) eqn:X; [|reflexivity]. destruct (B23 eq_refl); congruence. }
      unfold derive_recursive in H.
      mstep H; [|unfold get_ctx, at_slot in *; congruence].
      assert (c = pc) by (unfold get_ctx, at_slot in *; congruence). subst c.
      mstep H.
      { mstep H. apply Why. right; left. split; [reflexivity|]. apply negb_true_iff, N.eqb_neq in B1. exact B1. }
      assert (Hcl : length (tci_cumulative (c_tci pc)) = tci_size cf)
        by (apply (so_cumulative _ _ _ (wf_slot _ _ W _ _ Hpc))).
      mstep H.
      2:{ apply Why. right. apply add_tci_err in E as [[_ X]|[[-> X]|X]]; auto; [congruence|].
          right; left. split; [reflexivity|]. congruence. }
      2:{ exfalso; revert E; apply add_tci_nocrash. }
      pose proof (add_tci_keeps C P co _ _ _ _ _ _ E) as [K0 Ko0].
      apply add_tci_ok in E as (_ & _ & dg & Hd & Hdl & ->).
      mstep H.
      2:{ apply Why. right; right; right; right. apply roll_err in E. exact E. }
      2:{ exfalso; revert E; apply roll_handle_nocrash. }
      pose proof (roll_handle_keeps C P co _ _ _ _ E) as [K1 Ko1]. apply roll_handle_ok in E.
      mstep H; [|rewrite K1, K0 in L; lia].
      eapply respond_explained; [|  |exact H]; [cbn [w_out]; congruence|].
      rewrite length_two; [cbn [fixed_size]; rewrite X23; lia| |reflexivity].
      eapply rolled_len; [|exact E]; cbn; eapply handle_len; eauto.
    - (* not recursive *)
      destruct (unique_total (w_st w) (children_iter cf (c_children pc)) (dc_tci_type d)) as (b & Eu).
      { intros i Hi. apply (in_children cf Hcf (w_st w) p pc i (wf_forest _ _ W) Hpc) in Hi as (c & Hc & _). eauto. }
      rewrite Eu in H. change (lift (Ok b)) with (@ret C P _ b) in H. mstep H.
      mstep H.
      { mstep H. apply negb_true_iff in B1. subst b. apply not_unique_explained in Eu as (i & c & Hin & Hc & Ht).
        apply Why. left. split; [reflexivity|]. do 3 right. split; [exact B24|]. exists i, c. split; [exact Hc|].
        split; [|exact Ht]. exact (proj1 (in_children cf Hcf (w_st w) p pc i (wf_forest _ _ W) Hpc) Hin). }
      mstep H; [|unfold get_ctx, at_slot in *; congruence].
      assert (c = pc) by (unfold get_ctx, at_slot in *; congruence). subst c.
      mstep H.
      2:{ apply Why. right; left. unfold derive_tmp_parent, df_retain_parent in E. rewrite contains_bit in E.
          destruct (N.testbit (dc_flags d) 29) eqn:B29; [|apply ret_inv in E as [E _]; discriminate].
          split; [reflexivity|].
          destruct (handle_is_default (c_handle pc)) eqn:Dh; cbn [negb] in E; [apply ret_inv in E as [E _]; discriminate|].
          apply handle_is_default_neq in Dh. split; [exact Dh|].
          apply bind_inv in E as [(h & w1 & _ & E)|[(e & E & X)|(k & _ & X)]]; [| |discriminate].
          - apply ret_inv in E as [E _]; discriminate.
          - injection X as ->. eapply gen_err; exact E. }
      2:{ apply derive_tmp_parent_inv in E as [_ []]. }
      apply derive_tmp_parent_inv in E as ([K0 Ko0] & Htp & _).
      assert (Lph : length (c_handle a) = 16).
      { destruct Htp as [[_ Ro]|[_ ->]]; [|reflexivity]. eapply rolled_len; [|exact Ro]. eapply handle_len; eauto. }
      destruct (N.testbit (dc_flags d) 23) eqn:X23.
      + (* export *)
        destruct (B23 eq_refl) as [X22 _]. rewrite X22 in H. cbn [andb] in H.
        unfold derive_export in H.
        mstep H.
        2:{ apply platform_inv in E as (p' & _ & [(? & X & _)|(pe & X & Hp)]); [discriminate|]. injection X as ->.
            apply Why. right; right; left. exists pe. split; [reflexivity|]. left; eauto. }
        2:{ exfalso; revert E; apply nocrash_platform. }
        pose proof (keeps_platform _ _ _ _ E) as [K1 Ko1].
        apply platform_inv in E as (p1 & _ & [(u & X & Hu)|(pe & X & _)]); [|discriminate]. injection X as ->.
        mstep H.
        2:{ apply ok_or_inv in E as [(? & _ & X)|[E X]]; [discriminate|]. injection X as ->.
            apply Why. right; right; left. eexists. split; [reflexivity|]. right. split; [reflexivity|].
            exists u, (w_p w1), p1. split; [exact Hu|]. unfold ueid_get in E.
            destruct (N.leb_spec (ueid_size u) (N.of_nat max_ueid_size)); [discriminate|]. exact H. }
        2:{ apply ok_or_inv in E as [(? & _ & X)|[_ X]]; discriminate. }
        assert (U48 : length a0 <= 48).
        { apply ok_or_inv in E as [(v & E & X)|[_ X]]; [|discriminate]. injection X as ->. unfold ueid_get in E.
          destruct (N.leb_spec (ueid_size u) (N.of_nat max_ueid_size)); [|discriminate]. injection E as <-. rewrite firstn_length.
          unfold max_ueid_size in *. lia. }
        clear E. mstep H.
        mstep H.
        2:{ apply run_cert_result in E as (c' & p' & out' & E). rewrite K1, K0 in E.
            apply Why. right; right; right. do 7 eexists. split; [|split; [|split; [|split; [|exact E]]]]; try reflexivity; [congruence|exact U48]. }
        2:{ apply run_cert_result in E as (c' & p' & out' & E). rewrite K1, K0 in E.
            unfold explained, aborts. split; [exact X23|]. eauto 12. }
        pose proof (run_cert_len _ _ _ Hk _ _ _ _ _ _ E) as Hlo.
        apply run_cert_inv in E. rewrite K1, K0 in E.
        assert (EX : exists b, (if negb (df_retain_parent (dc_flags d))
            then let! x := st_get C P p (InternalError ContextIndexOob) in ret (has_children (c_children x))
            else ret true) w2 = (Ok b, w2)).
        { destruct (negb (df_retain_parent (dc_flags d))); [|exists true; reflexivity].
          exists (has_children (c_children pc)).
          unfold st_get, bind, get_st, lift, ret. rewrite E, (Hpc : get_ctx (w_st w) p = Some pc). reflexivity. }
        destruct EX as (b0 & EX). unfold bind at 1 in H; rewrite EX in H; cbv beta iota in H; clear EX.
        assert (EX : exists s' pd, length (c_handle pd) = 16 /\ at_slot s' p pd /\
           (if negb b0 then let! s := get_st in let! s' := lift (destroy_context cf (dc_handle d) s loc) in put_st s'
            else st_set C P p a (InternalError ContextIndexOob)) w2 =
             (Ok tt, mkWorld s' (w_c w2) (w_p w2) (w_out w2))).
        { destruct b0; cbn [negb].
          - exists (put_ctx (w_st w) p a), a. split; [exact Lph|]. split; [eapply at_put_same; exact Hpc|].
            unfold st_set, bind, get_st. rewrite E. apply Nat.ltb_lt in Hlt. rewrite Hlt. reflexivity.
          - destruct (destroy_total cf Hcf (dc_handle d) (w_st w) loc p (wf_forest _ _ W) Hf) as (s' & D).
            pose proof D as Hdd. apply (destroy_spec cf Hcf) in Hdd; [|apply W]. destruct Hdd as (t & Hft & _ & _ & Hpr).
            destruct (Hpr p pc Hpc) as (pd & Hpd & Kd & _).
            assert (t = p).
            { destruct Hf as [Hn1 Hl1], Hft as [Hn2 Hl2]. destruct (lt_eq_lt_dec t p) as [[?|?]|?]; auto.
              - exfalso; eapply Hl1; eauto.
              - exfalso; eapply Hl2; eauto. }
            subst t. destruct (Kd (doomed_target _ _)) as (_ & Hhd & _).
            exists s', pd. split; [rewrite Hhd; reflexivity|]. split; [exact Hpd|].
            unfold bind, get_st, lift. rewrite E, D. reflexivity. }
        destruct EX as (s' & pd & Lpd & Hpd & EX). unfold bind at 1 in H; rewrite EX in H; cbv beta iota in H; clear EX.
        mstep H; [|cbn in G0; unfold get_ctx, at_slot in *; congruence].
        cbn [w_st] in G0. assert (c = pd) by (unfold get_ctx, at_slot in *; congruence). subst c.
        mstep H.
        * mstep H. exact Logic.I.
        * apply write_out_inv in E0 as (_ & _ & _ & [(_ & X & _)|(L1 & X & _)]); [discriminate|].
          injection X as ->. left. split; [reflexivity|]. cbn [w_out plus] in L1.
          unfold exported_hdr_bytes in L1. rewrite !app_length, length_ok_hdr, length_to_buf, length_le_bytes, Lpd in L1.
          change (length invalid_handle) with 16 in L1. change exported_cdi_size with 32 in L1.
          cbn [fixed_size]. rewrite X23. rewrite Hlo, Ko1, Ko0 in L1. lia.
        * exfalso; revert E0; apply nocrash_write_out.
      + (* child *)
        rewrite andb_false_r in H. unfold derive_child in H. mstep H. rewrite K0 in H.
        mstep H.
        2:{ apply ok_or_inv in E as [(? & _ & X)|[E X]]; [discriminate|]. injection X as ->.
            apply Why. right; right; left. split; [reflexivity|]. apply no_free_slot; exact E. }
        2:{ apply ok_or_inv in E as [(? & _ & X)|[_ X]]; discriminate. }
        apply ok_or_inv in E as [(k & E & X)|[_ X]]; [|discriminate]. injection X as <-.
        apply next_inactive_ok in E as [(old & Hold & Hio) _]. pose proof (nth_error_lt _ _ _ Hold) as Hltk.
        mstep H.
        { mstep H. apply negb_true_iff in B2. apply Why. right; right; right; left. split; [reflexivity|].
          apply unsafe_explained; exact B2. }
        assert (EH : (exists h w2, (if df_make_default (dc_flags d) then ret default_handle
                 else generate_new_handle C P co) w1 = (Ok h, w2) /\ keep w1 w2 /\ length h = 16) \/
                 (N.testbit (dc_flags d) 28 = false /\ exists e w2, (if df_make_default (dc_flags d) then ret default_handle
                 else generate_new_handle C P co) w1 = (Err e, w2) /\ no_handle co (w_st w2) e)).
        { unfold df_make_default. rewrite contains_bit. destruct (N.testbit (dc_flags d) 28).
          - left. exists default_handle, w1. split; [reflexivity|]. split; [apply keep_refl|reflexivity].
          - destruct (generate_new_handle C P co w1) as [[h|e|k] w2] eqn:GE.
            + left. exists h, w2. split; [reflexivity|]. split; [eapply generate_new_handle_keeps; exact GE|].
              apply generate_new_handle_ok in GE as (_ & L & _). exact L.
            + right. split; [reflexivity|]. exists e, w2. split; [reflexivity|]. eapply gen_err; exact GE.
            + exfalso; revert GE; apply generate_new_handle_nocrash. }
        destruct EH as [(h & w2 & EH & [K2 Ko2] & L16)|(B28 & e & w2 & EH & NH)].
        2:{ unfold bind at 1 in H. rewrite EH in H. inversion H; subst. apply Why. right. do 4 right. auto. }
        unfold bind at 1 in H; rewrite EH in H; cbv beta iota in H; clear EH.
        mstep H; [|rewrite K2, K0 in G0; unfold get_ctx, at_slot in *; congruence].
        rewrite K2, K0 in G0. assert (c = pc) by (unfold get_ctx, at_slot in *; congruence). subst c.
        mstep H.
        2:{ apply Why. right. do 3 right. left. apply add_tci_err in E as [[_ X]|[[_ X]|X]]; auto.
            - cbn in X. congruence.
            - cbn in X. congruence.
            - apply repeat_length. }
        2:{ exfalso; revert E; apply add_tci_nocrash. }
        pose proof (add_tci_keeps C P co _ _ _ _ _ _ E) as [K3 Ko3].
        apply add_tci_ok in E as (_ & _ & dg & Hd & Hdl & ->).
        mstep H.
        2:{ exfalso. unfold ctx_add_child, children_add in E. rewrite (fo_size _ _ (wf_forest _ _ W)) in Hltk.
            destruct (Nat.leb_spec (max_handles cf) a0); [lia|]. discriminate. }
        2:{ exfalso. unfold ctx_add_child, children_add in E. destruct (Nat.leb (max_handles cf) a0); discriminate. }
        assert (Hha : c_handle a1 = c_handle a).
        { unfold ctx_add_child, children_add in E. destruct (Nat.leb (max_handles cf) a0); [discriminate|].
          injection E as <-. reflexivity. }
        mstep H; [|rewrite K3, K2, K0 in L; lia].
        mstep H; [|cbn in L0; rewrite length_upd, K3, K2, K0 in L0; lia].
        cbn [w_st w_c w_p w_out] in H.
        mstep H.
        2:{ exfalso. revert G1. cbn [w_st]. unfold get_ctx, put_ctx, set_contexts; cbn [st_contexts].
            rewrite nth_error_upd_eq by (rewrite length_upd, K3, K2, K0; exact Hlt). discriminate. }
        revert G1. cbn [w_st]. unfold get_ctx, put_ctx at 1, set_contexts; cbn [st_contexts].
        rewrite nth_error_upd_eq by (cbn; rewrite length_upd, K3, K2, K0; exact Hlt). intros G1. injection G1 as <-.
        eapply respond_explained; [|  |exact H]; [cbn [w_out]; congruence|].
        rewrite length_two; [cbn [fixed_size]; rewrite X23; lia|exact L16|]. rewrite Hha; exact Lph.
  Qed.

  Theorem command_explained cmd loc w r w' :
    wf cf (w_st w) -> exec_command cf C P co po cg cmd loc w = (r, w') -> explained cmd loc w r w'.
  Proof.
    intros W H. destruct cmd; cbn [exec_command] in H.
    - eapply get_profile_explained; eauto.
    - eapply init_explained; eauto.
    - eapply derive_explained; eauto.
    - eapply certify_explained; eauto.
    - eapply sign_explained; eauto.
    - eapply rotate_explained; eauto.
    - eapply destroy_explained; eauto.
    - eapply chain_explained; eauto.
    - eapply update_explained; eauto.
  Qed.
End Explain.
