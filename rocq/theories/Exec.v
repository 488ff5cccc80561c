(** Exec.v -- proof support: inversion of the monadic code and frame lemmas of
    the helper functions. *)
From Verif Require Import Base Errors Types StateOps Env Wire Instance Commands Lib Spec.
Local Open Scope nat_scope.
Open Scope dpe_scope.

Section Inv.
  Context {C P : Type}.

  Lemma bind_inv {A B} (m : M C P A) (f : A -> M C P B) w r w' :
    bind m f w = (r, w') ->
    (exists a w1, m w = (Ok a, w1) /\ f a w1 = (r, w')) \/
    (exists e, m w = (Err e, w') /\ r = Err e) \/
    (exists k, m w = (Crash k, w') /\ r = Crash k).
  Proof.
    unfold bind. destruct (m w) as [[a|e|k] w1] eqn:E; intros H.
    - left; eauto.
    - right; left; inversion H; subst; eauto.
    - right; right; inversion H; subst; eauto.
  Qed.

  (** State and output buffer unchanged. *)
  Definition keep (w w' : world C P) : Prop := w_st w' = w_st w /\ w_out w' = w_out w.

  Lemma keep_refl w : keep w w.
  Proof. split; reflexivity. Qed.
  Lemma keep_trans w1 w2 w3 : keep w1 w2 -> keep w2 w3 -> keep w1 w3.
  Proof. intros [H1 H2] [H3 H4]; split; congruence. Qed.

  Definition keeps {A} (m : M C P A) : Prop := forall w r w', m w = (r, w') -> keep w w'.

  Lemma keeps_bind {A B} (m : M C P A) (f : A -> M C P B) :
    keeps m -> (forall a, keeps (f a)) -> keeps (bind m f).
  Proof.
    intros Hm Hf w r w' H. apply bind_inv in H as [(a & w1 & E & H)|[(e & E & _)|(k & E & _)]].
    - eapply keep_trans; [exact (Hm _ _ _ E)|exact (Hf _ _ _ _ H)].
    - exact (Hm _ _ _ E).
    - exact (Hm _ _ _ E).
  Qed.
  Lemma keeps_ret {A} (a : A) : keeps (ret a).
  Proof. intros w r w' H; inversion H; subst; apply keep_refl. Qed.
  Lemma keeps_fail {A} e : keeps (@fail C P A e).
  Proof. intros w r w' H; inversion H; subst; apply keep_refl. Qed.
  Lemma keeps_lift {A} (x : result A) : keeps (lift x).
  Proof. intros w r w' H; inversion H; subst; apply keep_refl. Qed.
  Lemma keeps_get_st : keeps get_st.
  Proof. intros w r w' H; inversion H; subst; apply keep_refl. Qed.
  Lemma keeps_crypto {A} (f : C -> (A + crypto_error) * C) : keeps (crypto f).
  Proof.
    intros w r w'; unfold crypto. destruct (f (w_c w)) as [[a|e] c]; intros H; inversion H; subst;
      split; reflexivity.
  Qed.
  Lemma keeps_platform {A} (f : P -> (A + platform_error) * P) : keeps (platform f).
  Proof.
    intros w r w'; unfold platform. destruct (f (w_p w)) as [[a|e] c]; intros H; inversion H; subst;
      split; reflexivity.
  Qed.
  Lemma keeps_if {A} (b : bool) (m1 m2 : M C P A) : keeps m1 -> keeps m2 -> keeps (if b then m1 else m2).
  Proof. destruct b; auto. Qed.

  (** Never aborts. *)
  Definition nocrash {A} (m : M C P A) : Prop := forall w k w', m w <> (Crash k, w').
  Lemma nocrash_bind {A B} (m : M C P A) (f : A -> M C P B) :
    nocrash m -> (forall a, nocrash (f a)) -> nocrash (bind m f).
  Proof.
    intros Hm Hf w k w' H. apply bind_inv in H as [(a & w1 & E & H)|[(e & E & H)|(k' & E & H)]].
    - exact (Hf _ _ _ _ H).
    - discriminate.
    - exact (Hm _ _ _ E).
  Qed.
  Lemma nocrash_ret {A} (a : A) : nocrash (ret a).
  Proof. intros w k w' H; inversion H. Qed.
  Lemma nocrash_fail {A} e : nocrash (@fail C P A e).
  Proof. intros w k w' H; inversion H. Qed.
  Lemma nocrash_get_st : nocrash get_st.
  Proof. intros w k w' H; inversion H. Qed.
  Lemma nocrash_put_st s : nocrash (put_st s).
  Proof. intros w k w' H; inversion H. Qed.
  Lemma nocrash_crypto {A} (f : C -> (A + crypto_error) * C) : nocrash (crypto f).
  Proof. intros w k w'; unfold crypto. destruct (f (w_c w)) as [[a|e] c]; discriminate. Qed.
  Lemma nocrash_platform {A} (f : P -> (A + platform_error) * P) : nocrash (platform f).
  Proof. intros w k w'; unfold platform. destruct (f (w_p w)) as [[a|e] c]; discriminate. Qed.
  Lemma nocrash_write_out o b : nocrash (write_out o b).
  Proof. intros w k w'; unfold write_out. destruct (Nat.leb _ _); discriminate. Qed.
  Lemma nocrash_if {A} (b : bool) (m1 m2 : M C P A) :
    nocrash m1 -> nocrash m2 -> nocrash (if b then m1 else m2).
  Proof. destruct b; auto. Qed.
End Inv.

Ltac keeps_auto :=
  repeat match goal with
    | |- keeps (bind _ _) => apply keeps_bind; [|intros]
    | |- keeps (ret _) => apply keeps_ret
    | |- keeps (fail _) => apply keeps_fail
    | |- keeps (lift _) => apply keeps_lift
    | |- keeps get_st => apply keeps_get_st
    | |- keeps (crypto _) => apply keeps_crypto
    | |- keeps (platform _) => apply keeps_platform
    | |- keeps (match ?x with _ => _ end) => destruct x
    end.

Ltac nocrash_auto :=
  repeat match goal with
    | |- nocrash (bind _ _) => apply nocrash_bind; [|intros]
    | |- nocrash (ret _) => apply nocrash_ret
    | |- nocrash (fail _) => apply nocrash_fail
    | |- nocrash get_st => apply nocrash_get_st
    | |- nocrash (put_st _) => apply nocrash_put_st
    | |- nocrash (crypto _) => apply nocrash_crypto
    | |- nocrash (platform _) => apply nocrash_platform
    | |- nocrash (write_out _ _) => apply nocrash_write_out
    | |- nocrash (match ?x with _ => _ end) => destruct x
    end.

(** Equations and inversions for the primitive operations under [bind]. *)
Section Inv2.
  Context {C P : Type}.
  Lemma bind_get_st {B} (f : state -> M C P B) w : bind get_st f w = f (w_st w) w.
  Proof. reflexivity. Qed.
  Lemma bind_ret {A B} (a : A) (f : A -> M C P B) w : bind (ret a) f w = f a w.
  Proof. reflexivity. Qed.
  Lemma bind_put_st {B} s (f : unit -> M C P B) w :
    bind (put_st s) f w = f tt (mkWorld s (w_c w) (w_p w) (w_out w)).
  Proof. reflexivity. Qed.
  Lemma bind_assoc {A B D} (m : M C P A) (f : A -> M C P B) (g : B -> M C P D) w :
    bind (bind m f) g w = bind m (fun x => bind (f x) g) w.
  Proof. unfold bind. destruct (m w) as [[a|e|k] w1]; reflexivity. Qed.
  Lemma bind_fail_inv {A B} e (f : A -> M C P B) w r w' :
    bind (fail e) f w = (r, w') -> r = Err e /\ w' = w.
  Proof. unfold bind, fail; intros H; inversion H; auto. Qed.
  Lemma bind_lift_inv {A B} (x : result A) (f : A -> M C P B) w r w' :
    bind (lift x) f w = (r, w') ->
    (exists a, x = Ok a /\ f a w = (r, w')) \/
    (exists e, x = Err e /\ r = Err e /\ w' = w) \/
    (exists k, x = Crash k /\ r = Crash k /\ w' = w).
  Proof.
    unfold bind, lift; destruct x as [a|e|k]; intros H; [left; eauto|right; left|right; right];
      inversion H; subst; eauto.
  Qed.
  Lemma ret_inv {A} (a : A) (w : world C P) r w' : ret a w = (r, w') -> r = Ok a /\ w' = w.
  Proof. intros H; inversion H; auto. Qed.
  Lemma fail_inv {A} e (w : world C P) (r : result A) w' : fail e w = (r, w') -> r = Err e /\ w' = w.
  Proof. intros H; inversion H; auto. Qed.
  Lemma lift_inv {A} (x : result A) (w : world C P) r w' : lift x w = (r, w') -> r = x /\ w' = w.
  Proof. intros H; inversion H; auto. Qed.
  Lemma bind_st_get_inv {B} i e (f : context -> M C P B) w r w' :
    bind (st_get C P i e) f w = (r, w') ->
    (exists c, get_ctx (w_st w) i = Some c /\ f c w = (r, w')) \/
    (get_ctx (w_st w) i = None /\ r = Err e /\ w' = w).
  Proof.
    unfold st_get. rewrite bind_assoc, bind_get_st. intros H.
    apply bind_lift_inv in H as [(c & E & H)|[(e' & E & Hr & Hw)|(k & E & Hr & Hw)]];
      destruct (get_ctx (w_st w) i); cbn in E; inversion E; subst; eauto.
  Qed.
  Lemma bind_st_index_inv {B} i (f : context -> M C P B) w r w' :
    bind (st_index C P i) f w = (r, w') ->
    (exists c, get_ctx (w_st w) i = Some c /\ f c w = (r, w')) \/
    (get_ctx (w_st w) i = None /\ r = Crash CrashIndex /\ w' = w).
  Proof.
    unfold st_index. rewrite bind_assoc, bind_get_st. intros H.
    apply bind_lift_inv in H as [(c & E & H)|[(e' & E & Hr & Hw)|(k & E & Hr & Hw)]];
      destruct (get_ctx (w_st w) i); cbn in E; inversion E; subst; eauto.
  Qed.
  Lemma bind_st_set_inv {B} i c e (f : unit -> M C P B) w r w' :
    bind (st_set C P i c e) f w = (r, w') ->
    (i < length (st_contexts (w_st w)) /\
     f tt (mkWorld (put_ctx (w_st w) i c) (w_c w) (w_p w) (w_out w)) = (r, w')) \/
    (length (st_contexts (w_st w)) <= i /\ r = Err e /\ w' = w).
  Proof.
    unfold st_set. rewrite bind_assoc, bind_get_st.
    destruct (Nat.ltb_spec i (length (st_contexts (w_st w)))) as [L|L]; intros H.
    - left; split; [exact L|exact H].
    - right. apply bind_fail_inv in H. tauto.
  Qed.
  Lemma bind_st_assign_inv {B} i c (f : unit -> M C P B) w r w' :
    bind (st_assign C P i c) f w = (r, w') ->
    (i < length (st_contexts (w_st w)) /\
     f tt (mkWorld (put_ctx (w_st w) i c) (w_c w) (w_p w) (w_out w)) = (r, w')) \/
    (length (st_contexts (w_st w)) <= i /\ r = Crash CrashIndex /\ w' = w).
  Proof.
    unfold st_assign. rewrite bind_assoc, bind_get_st.
    destruct (Nat.ltb_spec i (length (st_contexts (w_st w)))) as [L|L]; intros H.
    - left; split; [exact L|exact H].
    - right. apply bind_lift_inv in H as [(a & E & _)|[(e & E & _)|(k & E & Hr & Hw)]]; try discriminate.
      inversion E; subst; auto.
  Qed.
  Lemma ok_or_inv {A} (o : option A) e r :
    ok_or o e = r -> (exists a, o = Some a /\ r = Ok a) \/ (o = None /\ r = Err e).
  Proof. destruct o; cbn; intros <-; eauto. Qed.
End Inv2.

(** Use an equation [x = t]: substitute a variable, or find a contradiction. *)
Ltac meq R :=
  first [ discriminate R
        | match type of R with ?x = _ => is_var x; subst x end
        | match type of R with ?x = ?x => clear R end
        | injection R; clear R; intros ?; subst
        | idtac ].

(** One step of symbolic execution of [H : m w = (r, w')]. *)
Ltac mstep H :=
  lazymatch type of H with
  | ret _ _ = _ => apply ret_inv in H; let R := fresh "R" in let W := fresh "W" in destruct H as [R W]; meq R; meq W
  | fail _ _ = _ => apply fail_inv in H; let R := fresh "R" in let W := fresh "W" in destruct H as [R W]; meq R; meq W
  | bind get_st _ _ = _ => rewrite bind_get_st in H
  | bind (ret _) _ _ = _ => rewrite bind_ret in H
  | bind (put_st _) _ _ = _ => rewrite bind_put_st in H
  | bind (bind _ _) _ _ = _ => rewrite bind_assoc in H
  | bind (fail _) _ _ = _ => apply bind_fail_inv in H; let R := fresh "R" in let W := fresh "W" in destruct H as [R W]; meq R; meq W
  | bind (lift _) _ _ = _ =>
      let a := fresh "a" in let E := fresh "E" in
      apply bind_lift_inv in H; let R := fresh "R" in let W := fresh "W" in
      destruct H as [(a & E & H) | [(a & E & R & W) | (a & E & R & W)]]; [|meq R; meq W|meq R; meq W]
  | bind (st_get _ _ _ _) _ _ = _ =>
      let a := fresh "c" in let E := fresh "G" in
      apply bind_st_get_inv in H; let R := fresh "R" in let W := fresh "W" in
      destruct H as [(a & E & H) | (E & R & W)]; [|meq R; meq W]
  | bind (st_index _ _ _) _ _ = _ =>
      let a := fresh "c" in let E := fresh "G" in
      apply bind_st_index_inv in H; let R := fresh "R" in let W := fresh "W" in
      destruct H as [(a & E & H) | (E & R & W)]; [|meq R; meq W]
  | bind (st_set _ _ _ _ _) _ _ = _ =>
      let E := fresh "L" in
      apply bind_st_set_inv in H; let R := fresh "R" in let W := fresh "W" in
      destruct H as [(E & H) | (E & R & W)]; [|meq R; meq W]
  | bind (st_assign _ _ _ _) _ _ = _ =>
      let E := fresh "L" in
      apply bind_st_assign_inv in H; let R := fresh "R" in let W := fresh "W" in
      destruct H as [(E & H) | (E & R & W)]; [|meq R; meq W]
  | bind (if ?b then _ else _) _ _ = _ => let B := fresh "B" in destruct b eqn:B
  | (if ?b then _ else _) _ = _ => let B := fresh "B" in destruct b eqn:B
  | bind _ _ _ = _ =>
      let a := fresh "a" in let w1 := fresh "w1" in let E := fresh "E" in
      apply bind_inv in H;
      let R := fresh "R" in
      destruct H as [(a & w1 & E & H) | [(a & E & R) | (a & E & R)]]; [|meq R|meq R]
  end; try (cbv beta iota in H).

Section Helpers.
  Variable cf : config.
  Variables C P : Type.
  Variable co : crypto_ops C.
  Variable po : platform_ops P.

  (** *** Handle generation *)
  Definition gen_ok (s : state) (h : bytes) : Prop :=
    h <> default_handle /\ length h = handle_size /\ all_bytes h /\
    forall c, In c (st_contexts s) -> c_handle c <> h.

  Lemma gen_handle_loop_keeps n : keeps (gen_handle_loop C P co n).
  Proof. induction n as [|n IH]; cbn [gen_handle_loop]; keeps_auto. exact IH. Qed.

  Lemma generate_new_handle_keeps : keeps (generate_new_handle C P co).
  Proof. apply gen_handle_loop_keeps. Qed.

  Lemma gen_handle_loop_ok n w h w' :
    gen_handle_loop C P co n w = (Ok h, w') -> gen_ok (w_st w) h.
  Proof.
    revert w w'; induction n as [|n IH]; cbn [gen_handle_loop]; intros w w' H; [discriminate|].
    mstep H; try discriminate. pose proof (keeps_crypto _ _ _ _ E) as [Hs _].
    mstep H. mstep H.
    - apply ret_inv in H as [H ->]; inversion H; subst h; clear H. rewrite Hs in B. apply andb_true_iff in B as [B1 B2].
      apply negb_true_iff in B1, B2. apply handle_is_default_neq in B1.
      split; [exact B1|]. split; [apply length_to_buf|]. split; [apply all_bytes_to_buf|].
      intros c Hc Eq. assert (existsb (fun c => handle_eqb (c_handle c) (to_buf handle_size a))
                                      (st_contexts (w_st w)) = true); [|congruence].
      apply existsb_exists; exists c; split; [exact Hc|]. apply handle_eqb_eq; exact Eq.
    - apply IH in H. rewrite Hs in H. exact H.
  Qed.

  Lemma generate_new_handle_ok w h w' :
    generate_new_handle C P co w = (Ok h, w') -> gen_ok (w_st w) h.
  Proof. apply gen_handle_loop_ok. Qed.

  Lemma generate_new_handle_nocrash : nocrash (generate_new_handle C P co).
  Proof.
    unfold generate_new_handle. induction max_new_handle_attempts as [|n IH];
      cbn [gen_handle_loop]; nocrash_auto. exact IH.
  Qed.

  (** Two draws in a row. *)
  Lemma gen_handle_loop_draws (drawn : C -> bytes -> Prop) :
    (forall c r c', co_rand_bytes co 16 c = (r, c') ->
      (forall v, drawn c v -> drawn c' v) /\
      (forall b, r = inl b -> ~ drawn c (to_buf 16 b) /\ drawn c' (to_buf 16 b))) ->
    forall n w h w', gen_handle_loop C P co n w = (Ok h, w') ->
    (forall v, drawn (w_c w) v -> drawn (w_c w') v) /\ ~ drawn (w_c w) h /\ drawn (w_c w') h.
  Proof.
    intros D. induction n as [|n IH]; cbn [gen_handle_loop]; intros w h w' H; [discriminate|].
    mstep H; try discriminate.
    unfold crypto in E. change handle_size with 16 in E, H.
    destruct (co_rand_bytes co 16 (w_c w)) as [[b|e] c'] eqn:R; [|discriminate].
    destruct (D _ _ _ R) as [D1 D2]. destruct (D2 b eq_refl) as [D3 D4].
    inversion E; subst a w1; clear E.
    mstep H. mstep H.
    - apply ret_inv in H as [H ->]; inversion H; subst h; clear H. cbn [w_c]. auto.
    - apply IH in H. cbn [w_c] in H. destruct H as (H1 & H2 & H3).
      split; [auto|]. split; [intros X; apply H2, D1, X|exact H3].
  Qed.

  Lemma two_draws w1 h1 w1' w2 h2 w2' :
    no_repeat co -> generate_new_handle C P co w1 = (Ok h1, w1') ->
    generate_new_handle C P co w2 = (Ok h2, w2') -> w_c w2 = w_c w1' -> h2 <> h1.
  Proof.
    intros (drawn & D) G1 G2 E X. apply (gen_handle_loop_draws drawn D) in G1 as (_ & _ & A).
    apply (gen_handle_loop_draws drawn D) in G2 as (_ & B & _). rewrite E in B. subst. contradiction.
  Qed.

  (** *** Handle rolling *)
  Lemma roll_handle_keeps c : keeps (roll_handle C P co c).
  Proof. unfold roll_handle; keeps_auto. apply generate_new_handle_keeps. Qed.

  Definition rolled (s : state) (c c' : context) : Prop :=
    (c_handle c = default_handle /\ c' = c) \/
    (c_handle c <> default_handle /\ exists h, gen_ok s h /\ c' = set_handle h c).

  Lemma roll_handle_ok c w c' w' :
    roll_handle C P co c w = (Ok c', w') -> rolled (w_st w) c c'.
  Proof.
    unfold roll_handle, rolled. destruct (handle_is_default (c_handle c)) eqn:D; cbn [negb]; intros H.
    - apply ret_inv in H as [H ->]; inversion H; subst c'; clear H. left.
      apply handle_is_default_eq in D; auto.
    - mstep H; try discriminate.
      apply ret_inv in H as [H ->]; inversion H; subst c'; clear H. right. apply handle_is_default_neq in D.
      split; [exact D|]. exists a. split; [|reflexivity]. eapply generate_new_handle_ok; eauto.
  Qed.
  Lemma roll_handle_nocrash c : nocrash (roll_handle C P co c).
  Proof. unfold roll_handle; nocrash_auto. apply generate_new_handle_nocrash. Qed.

  (** *** Hashing *)
  Lemma hash_updates_keeps l : keeps (hash_updates C P co l).
  Proof. induction l as [|b l IH]; cbn [hash_updates]; keeps_auto. exact IH. Qed.
  Lemma hash_all_keeps l : keeps (hash_all C P co l).
  Proof. unfold hash_all; keeps_auto. apply hash_updates_keeps. Qed.
  Lemma hash_updates_nocrash l : nocrash (hash_updates C P co l).
  Proof. induction l as [|b l IH]; cbn [hash_updates]; nocrash_auto. exact IH. Qed.
  Lemma hash_all_nocrash l : nocrash (hash_all C P co l).
  Proof. unfold hash_all; nocrash_auto. apply hash_updates_nocrash. Qed.

  (** The back end answered [d] when asked for the hash of the concatenation
      of [l] (in some back-end state). *)
  Definition hashed (l : list bytes) (d : bytes) : Prop :=
    exists w dg w', hash_all C P co l w = (Ok dg, w') /\ d = digest_bytes dg.

  Definition extend (t : tci) (d m : bytes) : tci :=
    mkTci (tci_type t) d m (tci_locality t) (tci_svn t).

  Lemma add_tci_keeps c m l : keeps (add_tci_measurement C P co c m l).
  Proof. unfold add_tci_measurement; keeps_auto. apply hash_all_keeps. Qed.
  Lemma add_tci_nocrash c m l : nocrash (add_tci_measurement C P co c m l).
  Proof. unfold add_tci_measurement; nocrash_auto. apply hash_all_nocrash. Qed.
  Lemma add_tci_ok c m l w c' w' :
    add_tci_measurement C P co c m l w = (Ok c', w') ->
    c_state c = Active /\ c_locality c = l /\
    exists d, hashed [tci_cumulative (c_tci c); m] d /\
              length d = length (tci_cumulative (c_tci c)) /\
              c' = set_tci (extend (c_tci c) d m) c.
  Proof.
    unfold add_tci_measurement. destruct (ctx_state_eqb (c_state c) Active) eqn:A; cbn [negb]; [|discriminate].
    destruct (N.eqb_spec (c_locality c) l) as [L|L]; cbn [negb]; [|discriminate]. intros H.
    mstep H; try discriminate.
    destruct (Nat.eqb_spec (length (digest_bytes a)) (length (tci_cumulative (c_tci c)))) as [Hl|Hl];
      cbn [negb] in H; [|discriminate].
    apply ret_inv in H as [H ->]; inversion H; subst c'; clear H.
    apply ctx_state_eqb_eq in A. split; [exact A|]. split; [exact L|].
    exists (digest_bytes a). split; [exists w, a, w1; auto|]. auto.
  Qed.

  (** *** Measurement hash *)
  Lemma get_profile_keeps sup : keeps (get_profile cf C P po sup).
  Proof. unfold get_profile; keeps_auto. Qed.
  Lemma get_profile_nocrash sup : nocrash (get_profile cf C P po sup).
  Proof. unfold get_profile; nocrash_auto. Qed.
  Lemma internal_input_info_keeps sup : keeps (internal_input_info cf C P po sup).
  Proof. unfold internal_input_info; keeps_auto. apply get_profile_keeps. Qed.
  Lemma cert_chain_call_keeps o s b : keeps (cert_chain_call C P po o s b).
  Proof.
    intros w r w'; unfold cert_chain_call.
    destruct (po_certificate_chain po o s b (w_p w)) as [[r0 b0] p0]; intros H; inversion H; subst;
      split; reflexivity.
  Qed.
  Lemma cert_chain_call_nocrash o s b : nocrash (cert_chain_call C P po o s b).
  Proof.
    intros w k w'; unfold cert_chain_call.
    destruct (po_certificate_chain po o s b (w_p w)) as [[r0 b0] p0]; discriminate.
  Qed.
  Lemma hash_nodes_keeps n l it i d : keeps (hash_nodes cf C P co n l it i d).
  Proof.
    revert it i d; induction n as [|n IH]; cbn [hash_nodes]; intros it i d; keeps_auto. apply IH.
  Qed.
  Lemma hash_cert_chain_keeps n o b : keeps (hash_cert_chain C P co po n o b).
  Proof.
    revert o b; induction n as [|n IH]; cbn [hash_cert_chain]; intros o b; keeps_auto.
    - apply cert_chain_call_keeps.
    - apply IH.
  Qed.
  Lemma cmh_keeps i : keeps (compute_measurement_hash cf C P co po i).
  Proof.
    unfold compute_measurement_hash; keeps_auto.
    - apply hash_nodes_keeps.
    - apply internal_input_info_keeps.
    - apply hash_cert_chain_keeps.
  Qed.
  Lemma do_sign_keeps i l d : keeps (do_sign cf C P co po i l d).
  Proof. unfold do_sign; keeps_auto. apply cmh_keeps. Qed.

  (** *** Slot access *)
  Lemma st_get_inv i e w r w' :
    st_get C P i e w = (r, w') -> w' = w /\ r = ok_or (get_ctx (w_st w) i) e.
  Proof. unfold st_get, bind, get_st, lift; intros H; inversion H; subst; auto. Qed.
  Lemma st_index_inv i w r w' :
    st_index C P i w = (r, w') -> w' = w /\ r = index_or_crash (get_ctx (w_st w) i).
  Proof. unfold st_index, bind, get_st, lift; intros H; inversion H; subst; auto. Qed.
  Lemma st_set_inv i c e w r w' :
    st_set C P i c e w = (r, w') ->
    (i < length (st_contexts (w_st w)) /\ r = Ok tt /\
     w' = mkWorld (put_ctx (w_st w) i c) (w_c w) (w_p w) (w_out w)) \/
    (length (st_contexts (w_st w)) <= i /\ r = Err e /\ w' = w).
  Proof.
    unfold st_set, bind, get_st. destruct (Nat.ltb_spec i (length (st_contexts (w_st w))));
      unfold put_st, fail; intros H'; inversion H'; subst; auto 10.
  Qed.
  Lemma st_assign_inv i c w r w' :
    st_assign C P i c w = (r, w') ->
    (i < length (st_contexts (w_st w)) /\ r = Ok tt /\
     w' = mkWorld (put_ctx (w_st w) i c) (w_c w) (w_p w) (w_out w)) \/
    (length (st_contexts (w_st w)) <= i /\ r = Crash CrashIndex /\ w' = w).
  Proof.
    unfold st_assign, bind, get_st. destruct (Nat.ltb_spec i (length (st_contexts (w_st w))));
      unfold put_st, lift; intros H'; inversion H'; subst; auto 10.
  Qed.

  (** *** Responses *)
  Definition responded (bs : bytes) (w : world C P) (r : result N) (w' : world C P) : Prop :=
    w_st w' = w_st w /\
    ((length bs <= length (w_out w) /\ r = Ok (N.of_nat (length bs)) /\
      w_out w' = overwrite (w_out w) 0 bs) \/
     (length (w_out w) < length bs /\ r = Err InvalidResponseBuf /\ w_out w' = w_out w)).

  Lemma write_out_inv o b (w : world C P) r w' :
    write_out o b w = (r, w') ->
    w_st w' = w_st w /\ w_c w' = w_c w /\ w_p w' = w_p w /\
    ((o + length b <= length (w_out w) /\ r = Ok tt /\ w_out w' = overwrite (w_out w) o b) \/
     (length (w_out w) < o + length b /\ r = Err InvalidResponseBuf /\ w_out w' = w_out w)).
  Proof.
    unfold write_out. destruct (Nat.leb_spec (o + length b) (length (w_out w)));
      intros H'; inversion H'; subst; auto 10.
  Qed.

  Lemma respond_inv bs w r w' : respond C P bs w = (r, w') -> responded bs w r w'.
  Proof.
    unfold respond; intros H. mstep H.
    - apply write_out_inv in E as (Hs & _ & _ & [(L & R & O)|(L & R & O)]); [|discriminate].
      mstep H. split; [exact Hs|]. left; cbn in L; auto.
    - apply write_out_inv in E as (Hs & _ & _ & [(L & R & O)|(L & R & O)]); [discriminate|].
      inversion R; subst. split; [exact Hs|]. right; cbn in L; auto.
    - exfalso; revert E; apply nocrash_write_out.
  Qed.
End Helpers.

(** ** Look-up *)

Lemma get_ctx_at s i c : get_ctx s i = Some c <-> at_slot s i c.
Proof. reflexivity. Qed.

Lemma active_in_iff loc c : active_in loc c = true <-> c_state c = Active /\ c_locality c = loc.
Proof. unfold active_in. rewrite andb_true_iff, ctx_state_eqb_eq, N.eqb_eq; reflexivity. Qed.

Lemma first_filter_enum {A} (f : A -> bool) (l : list A) :
  forall k i x rest,
  filter (fun p => f (snd p)) (combine (seq k (length l)) l) = (i, x) :: rest ->
  exists n, i = k + n /\ nth_error l n = Some x /\ f x = true /\
            forall m y, m < n -> nth_error l m = Some y -> f y = false.
Proof.
  induction l as [|a l IH]; cbn; intros k i x rest H; [discriminate|].
  destruct (f a) eqn:Fa; cbn in H.
  - inversion H; subst. exists 0. repeat split; auto. lia.
  - apply IH in H as (n & -> & Hn & Hf & Hlow). exists (S n). repeat split; auto; [lia|].
    intros [|m] y Hm Hy; cbn in Hy; [congruence|]. apply (Hlow m); auto; lia.
Qed.

Lemma lookup_spec s h loc :
  match get_active_context_pos s h loc with
  | Ok i => first_slot (names s h loc) i
  | Err InvalidHandle => (exists i c, at_slot s i c /\ c_state c = Active /\ c_locality c = loc) /\
                         forall i, ~ names s h loc i
  | Err InvalidLocality => forall i c, at_slot s i c -> c_state c = Active -> c_locality c <> loc
  | _ => False
  end.
Proof.
  unfold get_active_context_pos, get_active_context_pos_internal.
  destruct (filter (fun p => active_in loc (snd p)) (enumerate (st_contexts s))) as [|p0 rest] eqn:F1.
  - cbn. intros i c Hi Ha Hl.
    assert (In (i, c) []) as [].
    rewrite <- F1. apply filter_In; split; [apply in_enumerate; exact Hi|].
    apply active_in_iff; auto.
  - rewrite <- F1, filter_filter.
    set (g := fun x : context => active_in loc x && handle_eqb (c_handle x) h).
    replace (filter _ (enumerate (st_contexts s)))
      with (filter (fun p => g (snd p)) (enumerate (st_contexts s))) by reflexivity.
    assert (G : forall c, g c = true <-> c_state c = Active /\ c_locality c = loc /\ c_handle c = h).
    { intros c; unfold g. rewrite andb_true_iff, active_in_iff, handle_eqb_eq; tauto. }
    destruct (filter (fun p => g (snd p)) (enumerate (st_contexts s))) as [|[i c] rest'] eqn:F2.
    + cbn. split.
      * destruct p0 as [i c]. exists i, c.
        assert (In (i, c) (filter (fun p => active_in loc (snd p)) (enumerate (st_contexts s))))
          by (rewrite F1; left; reflexivity).
        apply filter_In in H as [H1 H2]. apply in_enumerate in H1. apply active_in_iff in H2.
        split; [exact H1|tauto].
      * intros i (c & Hi & Ha & Hl & Hh). assert (In (i, c) []) as [].
        rewrite <- F2. apply filter_In; split; [apply in_enumerate; exact Hi|].
        apply G; auto.
    + unfold enumerate in F2. apply first_filter_enum in F2 as (n & -> & Hn & Hf & Hlow).
      pose proof (proj1 (G c) Hf) as (Ha & Hl & Hh). cbn [find snd].
      rewrite Ha, Hl, Hh. unfold handle_eqb. rewrite bytes_eqb_refl, N.eqb_refl.
      cbn [ctx_state_eqb andb rbind plus].
      pose proof (nth_error_lt _ _ _ Hn) as Hlt.
      destruct (Nat.leb_spec (length (st_contexts s)) n); [lia|].
      split; [exists c; auto|].
      intros j Hj (c' & Hc' & Ha' & Hl' & Hh'). specialize (Hlow j c' Hj Hc').
      assert (g c' = true) by (apply G; auto). congruence.
Qed.

Lemma lookup_ok s h loc i :
  get_active_context_pos s h loc = Ok i <-> first_slot (names s h loc) i.
Proof.
  pose proof (lookup_spec s h loc) as L. split.
  - intros E; rewrite E in L; exact L.
  - intros [Hn Hlow]. destruct (get_active_context_pos s h loc) as [j|e|k].
    + f_equal. destruct L as [Ln Llow].
      destruct (lt_eq_lt_dec i j) as [[H|H]|H]; auto.
      * exfalso; exact (Llow _ H Hn).
      * exfalso; exact (Hlow _ H Ln).
    + destruct e; try contradiction.
      * exfalso; exact (proj2 L _ Hn).
      * exfalso. destruct Hn as (c & Hc & Ha & Hl & _). exact (L _ _ Hc Ha Hl).
    + contradiction.
Qed.

Lemma lookup_nocrash s h loc k : get_active_context_pos s h loc <> Crash k.
Proof. intros E; pose proof (lookup_spec s h loc) as L; rewrite E in L; exact L. Qed.

Lemma lookup_idx_ok s h loc c i :
  get_active_context_and_idx s h loc = Ok (c, i) <->
  first_slot (names s h loc) i /\ at_slot s i c.
Proof.
  unfold get_active_context_and_idx. rewrite <- lookup_ok.
  destruct (get_active_context_pos s h loc) as [j|e|k] eqn:E; cbn [rbind].
  - apply lookup_ok in E as [(c0 & Hc0 & _) _].
    rewrite (Hc0 : get_ctx s j = Some c0). cbn. split.
    + intros H; inversion H; subst; auto.
    + intros [H1 H2]; inversion H1; subst. unfold at_slot in *. congruence.
  - split; [discriminate|intros [H _]; discriminate].
  - split; [discriminate|intros [H _]; discriminate].
Qed.

Lemma next_inactive_ok s i :
  get_next_inactive_context_pos s = Some i <->
  first_slot (fun j => exists c, at_slot s j c /\ c_state c = Inactive) i.
Proof.
  unfold get_next_inactive_context_pos, first_slot. rewrite position_Some.
  split; intros [(c & Hc & Hi) Hlow]; split.
  - exists c; split; [exact Hc|]. apply ctx_state_eqb_eq; exact Hi.
  - intros j Hj (c' & Hc' & Hi'). specialize (Hlow j c' Hj Hc'). rewrite Hi' in Hlow; discriminate.
  - exists c; split; [exact Hc|]. rewrite Hi; reflexivity.
  - intros j c' Hj Hc'. destruct (ctx_state_eqb (c_state c') Inactive) eqn:E; [|reflexivity].
    exfalso. apply (Hlow j Hj). exists c'; split; [exact Hc'|]. apply ctx_state_eqb_eq; exact E.
Qed.

Lemma next_inactive_none s :
  get_next_inactive_context_pos s = None <-> forall i c, at_slot s i c -> live c.
Proof.
  unfold get_next_inactive_context_pos. rewrite position_None. unfold live. split.
  - intros H i c Hc E. specialize (H c (nth_error_In _ _ Hc)). rewrite E in H; discriminate.
  - intros H c Hc. apply In_nth_error in Hc as [i Hi]. specialize (H i c Hi).
    apply ctx_state_eqb_neq; exact H.
Qed.


Lemma at_put_iff s i c j d :
  at_slot (put_ctx s i c) j d <->
  (i = j /\ i < length (st_contexts s) /\ d = c) \/ (i <> j /\ at_slot s j d).
Proof.
  unfold at_slot, put_ctx, set_contexts; cbn [st_contexts]. rewrite nth_error_upd.
  destruct (Nat.eqb_spec i j) as [->|Hne].
  - destruct (Nat.ltb_spec j (length (st_contexts s))) as [L|L].
    + split.
      * intros H; inversion H; subst; auto.
      * intros [(_ & _ & ->)|[H _]]; [reflexivity|congruence].
    + split; [discriminate|]. intros [(_ & H & _)|[H _]]; [lia|congruence].
  - split; [auto|]. intros [(H & _)|[_ H]]; [congruence|exact H].
Qed.
