(** KeyProofs.v -- which key a context has, and what keeps it (C16, C44). *)
From Verif Require Import Base Errors Types StateOps Env Wire Instance Commands Lib Spec Exec Effects Forest History Contract Codec Steps Reach CommandSpecs
  Responses Walk Measure X509 X509Cert X509Run X509Spec X509Enc X509Cmd.
Local Open Scope nat_scope.

(** ** Specification *)

(** A back end that computes functions: [Hf] is its hash, [pub d l k x] the public
    half of the key pair it derives from the CDI for digest [d] and label [l] with the
    key label [k] and context [x], and its signatures satisfy [ver] for that key.
    Nothing is assumed about calls that fail. *)
Record faithful {C} (co : crypto_ops C) (Hf : bytes -> digest)
    (pub : digest -> bytes -> bytes -> bytes -> pubkey) (ver : pubkey -> sign_data -> signature -> Prop) : Prop := {
  fb_hash : forall c c0 c1 c2 c3 l d,
    co_hasher co c = (inl tt, c0) -> co_hash_initialize co c0 = (inl tt, c1) -> absorbs co c1 l c2 ->
    co_hash_finish co c2 = (inl d, c3) -> d = Hf (concat l);
  fb_public : forall c c1 c2 c3 d l k x pk,
    co_derive_cdi co d l c = (inl tt, c1) -> co_derive_key_pair co k x c1 = (inl tt, c2) ->
    co_signer_public_key co c2 = (inl pk, c3) -> pk = pub d l k x;
  fb_sign : forall c c1 c2 c3 d l k x m g,
    co_derive_cdi co d l c = (inl tt, c1) -> co_derive_key_pair co k x c1 = (inl tt, c2) ->
    co_signer_sign co m c2 = (inl g, c3) -> ver (pub d l k x) m g }.

(** A platform whose identity and certificate chain do not change. *)
Record steady {P} (po : platform_ops P) (vid sku : N) (chain : bytes) : Prop := {
  sp_vid : forall p v p', po_vendor_id po p = (inl v, p') -> v = vid;
  sp_sku : forall p v p', po_vendor_sku po p = (inl v, p') -> v = sku;
  sp_chain : forall p l p', chain_read po 0 (repeat 0%N 2048) p l p' -> concat l = chain }.

(** What is measured of a chain of contexts (leaf first) and its environment. *)
Definition measured_bytes (cf : config) (support vid sku : N) (chain : bytes) (cts : list context) : bytes :=
  concat (flat_map node_input cts)
  ++ (if existsb c_info cts then info_input cf support vid sku else [])
  ++ (if existsb c_dice cts then chain else []).

(** Two contexts with the same measured fields. *)
Definition measured_alike (c d : context) : Prop :=
  c_tci c = c_tci d /\ c_x509 c = c_x509 d /\ c_info c = c_info d /\ c_dice c = c_dice d.
(** The context in slot [i] is in use in both states, with the same measurements all
    the way to the root. *)
Definition same_chain (i : nat) (s s' : state) : Prop :=
  exists cts cts', lineage s i cts /\ lineage s' i cts' /\ Forall2 measured_alike cts cts'.

(** Commands that measure into an existing context, and commands that remove
    contexts. *)
Definition remeasures (cmd : command) : Prop :=
  match cmd with
  | CmdDeriveContext d => N.testbit (dc_flags d) 24 = true
  | CmdUpdateContextMeasurement _ => True
  | _ => False
  end.
Definition removes (cmd : command) : Prop :=
  match cmd with
  | CmdDestroyCtx _ => True
  | CmdDeriveContext d => N.testbit (dc_flags d) 23 = true /\ N.testbit (dc_flags d) 24 = false
  | _ => False
  end.

(** ** Chains *)

Lemma alike_refl c : measured_alike c c.
Proof. repeat split. Qed.
Lemma Forall2_alike_refl l : Forall2 measured_alike l l.
Proof. induction l; constructor; auto using alike_refl. Qed.
Lemma Forall2_alike_trans a : forall b c, Forall2 measured_alike a b -> Forall2 measured_alike b c -> Forall2 measured_alike a c.
Proof.
  induction a as [|x a IH]; intros b c H1 H2; inversion H1; subst; inversion H2; subst; constructor; [|eauto].
  unfold measured_alike in *. intuition congruence.
Qed.
Lemma measured_same cf support vid sku chain a b : Forall2 measured_alike a b ->
  measured_bytes cf support vid sku chain a = measured_bytes cf support vid sku chain b.
Proof.
  intros H. unfold measured_bytes.
  assert (E : flat_map node_input a = flat_map node_input b /\ existsb c_info a = existsb c_info b /\ existsb c_dice a = existsb c_dice b).
  { induction H as [|x y l l' (E1 & E2 & E3 & E4) H (I1 & I2 & I3)]; [auto|]. cbn [flat_map existsb].
    unfold node_input at 1 3. rewrite E1, E2, E3, E4, I1, I2, I3. auto. }
  destruct E as (-> & -> & ->). reflexivity.
Qed.

(** The chain of [i] is kept if every context in a set that contains [i] and is closed
    under parents keeps its measured fields and its parent. *)
Lemma path_at s : forall i l, path s i l -> exists cts, Forall2 (at_slot s) l cts.
Proof. induction 1 as [i c Hc L Hp|i c l Hc L Hp P (cts & IH)]; eauto. Qed.
Lemma chain_kept s s' (Q : nat -> Prop) :
  (forall j c, Q j -> at_slot s j c -> live c ->
     exists c', at_slot s' j c' /\ live c' /\ c_parent c' = c_parent c /\ measured_alike c c') ->
  (forall j c, Q j -> at_slot s j c -> live c -> c_parent c <> ROOT -> Q (c_parent c)) ->
  forall i l, path s i l -> Q i -> path s' i l /\
    forall cts, Forall2 (at_slot s) l cts -> exists cts', Forall2 (at_slot s') l cts' /\ Forall2 measured_alike cts cts'.
Proof.
  intros K U. induction 1 as [i c Hc L Hp|i c l Hc L Hp P IH]; intros HQ;
    destruct (K _ _ HQ Hc L) as (c' & Hc' & L' & Hp' & M).
  - split; [econstructor; eauto; congruence|]. intros cts F. inversion F as [|? d ? ds Hd Fr]; subst. inversion Fr; subst.
    rewrite (at_det _ _ _ _ Hd Hc). exists [c']. repeat constructor; auto; apply M.
  - destruct (IH (U _ _ HQ Hc L Hp)) as [P' F']. split.
    { eapply path_step; eauto; rewrite Hp'; assumption. }
    intros cts F. inversion F as [|? d ? ds Hd Fr]; subst. destruct (F' _ Fr) as (cts' & F1 & F2).
    rewrite (at_det _ _ _ _ Hd Hc). exists (c' :: cts'). split; constructor; auto.
Qed.
Lemma chain_kept_same s s' (Q : nat -> Prop) i cts :
  (forall j c, Q j -> at_slot s j c -> live c ->
     exists c', at_slot s' j c' /\ live c' /\ c_parent c' = c_parent c /\ measured_alike c c') ->
  (forall j c, Q j -> at_slot s j c -> live c -> c_parent c <> ROOT -> Q (c_parent c)) ->
  Q i -> lineage s i cts -> exists cts', lineage s' i cts' /\ Forall2 measured_alike cts cts'.
Proof.
  intros K U HQ (l & P & F). destruct (chain_kept s s' Q K U i l P HQ) as [P' F']. destruct (F' _ F) as (cts' & F1 & F2).
  exists cts'. split; [exists l; auto|exact F2].
Qed.

Lemma only_same (Q : nat -> Prop) s s' j c : only_slots Q s s' -> ~ Q j -> at_slot s j c -> at_slot s' j c.
Proof. intros (_ & _ & H) N A. unfold at_slot in *. rewrite H by exact N. exact A. Qed.

Section Kept.
  Variable cf : config.
  Hypothesis Hcf : config_ok cf.
  Variables C P : Type.
  Variable co : crypto_ops C.
  Variable po : platform_ops P.
  Variable cg : cert_kind -> cert_args -> nat -> state -> C -> P -> bytes -> result cert_result * C * P * bytes.
  Notation exec := (exec_command cf C P co po cg).

  (** Only slot [p] differs and keeps what is measured. *)
  Lemma one_kept s s' p c0 c0' : only_slots (eq p) s s' -> at_slot s p c0 -> at_slot s' p c0' ->
    (live c0 -> live c0') -> c_parent c0' = c_parent c0 -> measured_alike c0 c0' ->
    forall j c, True -> at_slot s j c -> live c ->
      exists c', at_slot s' j c' /\ live c' /\ c_parent c' = c_parent c /\ measured_alike c c'.
  Proof.
    intros O A0 A0' L0 P0 M0 j c _ A L. destruct (Nat.eq_dec p j) as [->|N].
    - rewrite (at_det _ _ _ _ A A0) in *. exists c0'. auto.
    - exists c. split; [eapply only_same; eauto|]. auto using alike_refl.
  Qed.
  Lemma handle_kept s s' p c0 c0' : only_slots (eq p) s s' -> at_slot s p c0 -> at_slot s' p c0' -> same_but_handle c0 c0' ->
    forall j c, True -> at_slot s j c -> live c ->
      exists c', at_slot s' j c' /\ live c' /\ c_parent c' = c_parent c /\ measured_alike c c'.
  Proof.
    intros O A A' (E1 & E2 & E3 & E4 & E5 & E6 & E7 & E8 & E9 & _). apply (one_kept _ _ _ _ _ O A A').
    - unfold live. rewrite E6. auto.
    - exact E4.
    - repeat split; congruence.
  Qed.
  (** One slot [a] is extended; chains that avoid it are kept. *)
  Lemma below_dec s a i l : path s i l -> {below s a i} + {~ below s a i}.
  Proof.
    intros H. destruct (in_dec Nat.eq_dec a l) as [I|N]; [left; exists l; auto|].
    right. intros (l' & H' & I'). rewrite (path_det _ _ _ H' _ H) in I'. contradiction.
  Qed.
  Lemma below_up s a j c : at_slot s j c -> live c -> c_parent c <> ROOT -> ~ below s a j -> ~ below s a (c_parent c).
  Proof. intros A L R N (l & P0 & I). apply N. exists (j :: l). split; [eapply path_step; eauto|right; exact I]. Qed.

  Lemma tci_eq_dec (a b : tci) : {a = b} + {a <> b}.
  Proof. decide equality; first [apply N.eq_dec|apply (list_eq_dec N.eq_dec)]. Qed.
  Lemma effect_chain cmd loc s s' i cts :
    forest cf s -> effect cf co cmd loc s s' -> lineage s i cts ->
    (exists cts', lineage s' i cts' /\ Forall2 measured_alike cts cts') \/
    (removes cmd /\ ~ live_at s' i) \/
    (remeasures cmd /\ exists a c c' m, below s a i /\ at_slot s a c /\ at_slot s' a c' /\ extended cf co m c c' /\ c_tci c' <> c_tci c).
  Proof.
    intros F H HL. pose proof HL as (l & HP & HF).
    assert (Qt : forall j c, True -> at_slot s j c -> live c -> c_parent c <> ROOT -> True) by auto.
    assert (One : (forall j c, True -> at_slot s j c -> live c ->
        exists c', at_slot s' j c' /\ live c' /\ c_parent c' = c_parent c /\ measured_alike c c') ->
        exists cts', lineage s' i cts' /\ Forall2 measured_alike cts cts').
    { intros K. exact (chain_kept_same s s' (fun _ => True) i cts K Qt Logic.I HL). }
    assert (Pruned : forall t, pruned cf s (doomed s t) s' ->
       (exists cts', lineage s' i cts' /\ Forall2 measured_alike cts cts') \/ ~ live_at s' i).
    { intros t (_ & _ & G).
      assert (exists ci, at_slot s i ci) as (ci & Hci) by (inversion HP; subst; eauto).
      destruct (G i ci Hci) as (ci' & A' & D1 & D2).
      destruct (c_state ci') eqn:Es.
      1:{ right. intros (x & Hx & Lx). rewrite (at_det _ _ _ _ Hx A') in Lx. apply Lx, Es. }
      all: left; assert (ND : ~ doomed s t i) by (intros D; destruct (D1 D) as ((X & _) & _); congruence);
        apply (chain_kept_same s s' (fun j => ~ doomed s t j) i cts); auto.
      all: try (intros j c NJ A L; destruct (G j c A) as (c' & Ac' & _ & K); destruct (K NJ) as ((E1 & E2 & E3 & E4 & E5 & E6 & E7 & E8 & E9 & _) & _);
        exists c'; split; [exact Ac'|]; split; [unfold live in *; congruence|]; split; [exact E4|]; repeat split; congruence).
      all: intros j c NJ A L R D; apply NJ; eapply doomed_child; [exact D|]; exists c; auto. }
    assert (Ext : forall a c c' m, at_slot s a c -> at_slot s' a c' -> extended cf co m c c' ->
       (forall j d, j <> a -> at_slot s j d -> live d ->
          exists d', at_slot s' j d' /\ live d' /\ c_parent d' = c_parent d /\ measured_alike d d') ->
       (exists cts', lineage s' i cts' /\ Forall2 measured_alike cts cts') \/
       exists a c c' m, below s a i /\ at_slot s a c /\ at_slot s' a c' /\ extended cf co m c c' /\ c_tci c' <> c_tci c).
    { intros a c c' m A A' E K. destruct (below_dec s a i l HP) as [B|B]; [|left].
      { destruct (tci_eq_dec (c_tci c') (c_tci c)) as [Et|Nt]; [left; apply One|right; eauto 12].
        intros j d _ Ad Ld. destruct (Nat.eq_dec j a) as [->|Na]; [|auto]. rewrite (at_det _ _ _ _ Ad A) in *. exists c'.
        destruct E as ((E1 & E2 & E3 & E4 & E5 & E6 & _) & Es & _). split; [exact A'|]. split; [unfold live in *; congruence|].
        split; [exact E1|repeat split; congruence]. }
      apply (chain_kept_same s s' (fun j => ~ below s a j) i cts); auto.
      - intros j d NB Ad Ld. apply K; auto. intros ->. apply NB.
        destruct (fo_acyclic _ _ F a ltac:(exists d; auto)) as (la & Pa). exists la. split; [exact Pa|]. destruct (path_head _ _ _ Pa) as (x & ->). left; reflexivity.
      - intros j d NB Ad Ld Rd. eapply below_up; eauto. }
    destruct cmd as [|f|d|cmd|sg|hh f|hh|o sz|u]; cbn [effect remeasures removes] in *.
    - left. subst s'. exists cts. split; [exact HL|apply Forall2_alike_refl].
    - left. apply One. destruct H as (k & h & ((ck & Ak & Ik) & _) & _ & _ & _ & _ & _ & Hj & _). intros j c _ A L.
      exists c. split; [unfold at_slot in *; rewrite Hj; [exact A|]|auto using alike_refl].
      intros ->. rewrite (at_det _ _ _ _ A Ak) in L. exact (L Ik).
    - destruct (N.testbit (dc_flags d) 24) eqn:B24; [|destruct (N.testbit (dc_flags d) 23) eqn:B23].
      + destruct H as (i0 & c & c' & (_ & A & _) & _ & _ & _ & O & A' & E & _).
        destruct (Ext i0 c c' _ ltac:(apply A) A' E) as [X|X]; [|left; exact X|right; right; split; [reflexivity|exact X]].
        intros j x N Ax Lx. exists x. split; [eapply only_same; eauto|auto using alike_refl].
      + destruct H as (p & pc & (_ & A & _) & _ & H). destruct (N.testbit (dc_flags d) 29).
        * destruct H as (pc' & O & A' & S & _). left. apply One. eapply handle_kept; eauto.
        * destruct (N.eqb (c_children pc) 0).
          -- destruct (Pruned _ H) as [X|X]; auto.
          -- destruct H as (pc' & O & A' & St & _ & _ & (E1 & E2 & E3 & E4 & E5 & E6 & _) & Et). left. apply One.
             apply (one_kept _ _ _ _ _ O A A'); [unfold live; congruence|exact E1|repeat split; congruence].
      + left. apply One. destruct H as (p & pc & pc' & k & h & dg & (_ & A & _) & ((ck & Ak & Ik) & _) & _ & O & _ & _ & _ & _ & A' & (E1 & E2 & E3 & E4 & E5 & E6 & _) & Et & _ & St).
        intros j c _ Ac Lc. destruct (Nat.eq_dec j p) as [->|Np].
        * rewrite (at_det _ _ _ _ Ac A) in *. exists pc'. split; [exact A'|].
          split; [unfold live; destruct (N.testbit (dc_flags d) 29); destruct St; congruence|]. split; [exact E1|repeat split; congruence].
        * destruct (Nat.eq_dec j k) as [->|Nk]; [rewrite (at_det _ _ _ _ Ac Ak) in Lc; destruct (Lc Ik)|].
          exists c. split; [eapply only_same; [exact O| |exact Ac]; intros [?|?]; auto|auto using alike_refl].
    - left. apply One. destruct H as (h & _ & i0 & c & c' & _ & A & O & A' & S & _). eapply handle_kept; eauto.
    - left. apply One. destruct H as (h & _ & i0 & c & c' & _ & A & O & A' & S & _). eapply handle_kept; eauto.
    - left. apply One. destruct H as (i0 & c & c' & _ & A & _ & O & A' & S & _). eapply handle_kept; eauto.
    - destruct H as (t & _ & H). destruct (Pruned _ H) as [X|X]; auto.
    - left. subst s'. exists cts. split; [exact HL|apply Forall2_alike_refl].
    - destruct H as (p & pc & pc' & i0 & c & c' & _ & _ & Ap & A & _ & _ & _ & Nip & O & Ap' & S & _ & A' & E & _).
      destruct (Ext i0 c c' _ A A' E) as [X|X]; [|left; exact X|right; right; split; [exact Logic.I|exact X]].
      destruct S as (E1 & E2 & E3 & E4 & E5 & E6 & E7 & E8 & E9 & _).
      intros j x N Ax Lx. destruct (Nat.eq_dec j p) as [->|Np].
      + rewrite (at_det _ _ _ _ Ax Ap) in *. exists pc'. split; [exact Ap'|]. split; [unfold live in *; congruence|]. split; [exact E4|repeat split; congruence].
      + exists x. split; [eapply only_same; [exact O| |exact Ax]; intros [?|?]; auto|auto using alike_refl].
  Qed.

  (** One command, any result. *)
  Lemma command_chain cmd loc w r w' i cts :
    wf cf (w_st w) -> exec cmd loc w = (r, w') -> lineage (w_st w) i cts ->
    (exists cts', lineage (w_st w') i cts' /\ Forall2 measured_alike cts cts') \/
    (removes cmd /\ ~ live_at (w_st w') i) \/
    (remeasures cmd /\ exists a c c' m, below (w_st w) a i /\ at_slot (w_st w) a c /\ at_slot (w_st w') a c' /\ extended cf co m c c' /\ c_tci c' <> c_tci c).
  Proof.
    intros W H HL. assert (Eff : effect cf co cmd loc (w_st w) (w_st w') -> _) by (intros X; exact (effect_chain cmd loc _ _ i cts (wf_forest _ _ W) X HL)).
    apply (command_effect cf C P co po cg Hcf) in H as [(n & _ & X)|(_ & [E|[(_ & X)|[(u & -> & X)|(c & _ & _ & X)]]])]; auto.
    - left. rewrite E. exists cts. split; [exact HL|apply Forall2_alike_refl].
    - left. destruct X as (p & pc & pc' & _ & _ & A & O & A' & S & _).
      apply (chain_kept_same (w_st w) (w_st w') (fun _ => True) i cts); auto. eapply handle_kept; eauto.
  Qed.
End Kept.

(** ** The key of a context *)

Section Key.
  Variable cf : config.
  Hypothesis Hcf : config_ok cf.
  Context {C P : Type}.
  Variable co : crypto_ops C.
  Variable po : platform_ops P.
  Variables (Hf : bytes -> digest) (pub : digest -> bytes -> bytes -> bytes -> pubkey) (ver : pubkey -> sign_data -> signature -> Prop).
  Variables (vid sku : N) (chain : bytes).
  Hypothesis Fb : faithful co Hf pub ver.
  Hypothesis Sp : steady po vid sku chain.

  Lemma extra_steady s cts p i d p' : extra_input cf po s cts p i d p' ->
    concat (flat_map node_input cts ++ i ++ d) = measured_bytes cf (st_support s) vid sku chain cts.
  Proof.
    intros (pi & Hi & Hd). unfold measured_bytes. rewrite !concat_app. f_equal. f_equal.
    - destruct (existsb_flag c_info cts) as [[-> (c & Ic & Fc)]|[-> N]], Hi as [(N' & -> & _)|((c' & Ic' & Fc') & v & k & p1 & Hv & Hk & ->)].
      + rewrite (N' _ Ic) in Fc. discriminate.
      + rewrite (sp_vid _ _ _ _ Sp _ _ _ Hv), (sp_sku _ _ _ _ Sp _ _ _ Hk). apply app_nil_r.
      + reflexivity.
      + rewrite (N _ Ic') in Fc'. discriminate.
    - destruct (existsb_flag c_dice cts) as [[-> (c & Ic & Fc)]|[-> N]], Hd as [(N' & -> & _)|((c' & Ic' & Fc') & Hr)].
      + rewrite (N' _ Ic) in Fc. discriminate.
      + exact (sp_chain _ _ _ _ Sp _ _ _ Hr).
      + reflexivity.
      + rewrite (N _ Ic') in Fc'. discriminate.
  Qed.
  Lemma digest_is i cts (w : world C P) d w' : wf cf (w_st w) -> lineage (w_st w) i cts ->
    compute_measurement_hash cf C P co po i w = (Ok d, w') ->
    d = Hf (measured_bytes cf (st_support (w_st w)) vid sku chain cts).
  Proof.
    intros W L H. apply (cmh_spec cf Hcf C P co po i cts) in H; [|apply W|exact L].
    destruct H as [(d' & c0 & c1 & c2 & ii & dd & E & H1 & H2 & H3 & H4 & H5)|[(e & E)|[(_ & e & E)|[[_ E]|(_ & k & p & E & _)]]]];
      try discriminate. apply ok_inj in E. subst d'.
    rewrite (fb_hash _ _ _ _ Fb _ _ _ _ _ _ _ H1 H2 H4 H5). rewrite (extra_steady _ _ _ _ _ _ H3). reflexivity.
  Qed.
  Lemma pub_is d l k x c pk c' : derive_pub_key C co d l k x c = (inl pk, c') -> pk = pub d l k x.
  Proof.
    unfold derive_pub_key, cseq. intros H. destruct (co_derive_cdi co d l c) as [[[]|e] c1] eqn:E1; [|discriminate].
    destruct (co_derive_key_pair co k x c1) as [[[]|e] c2] eqn:E2; [|discriminate]. exact (fb_public _ _ _ _ Fb _ _ _ _ _ _ _ _ _ E1 E2 H).
  Qed.
  Lemma sign_is d l k x m c g c' : sign_with_derived C co d l k x m c = (inl g, c') -> ver (pub d l k x) m g.
  Proof.
    unfold sign_with_derived, cseq. intros H. destruct (co_derive_cdi co d l c) as [[[]|e] c1] eqn:E1; [|discriminate].
    destruct (co_derive_key_pair co k x c1) as [[[]|e] c2] eqn:E2; [|discriminate]. exact (fb_sign _ _ _ _ Fb _ _ _ _ _ _ _ _ _ _ E1 E2 H).
  Qed.
  Lemma do_sign_is i cts label data (w : world C P) g w' : wf cf (w_st w) -> lineage (w_st w) i cts ->
    do_sign cf C P co po i label data w = (Ok g, w') ->
    ver (pub (Hf (measured_bytes cf (st_support (w_st w)) vid sku chain cts)) str_DPE label (key_context (prof cf))) data g.
  Proof.
    intros W L H. unfold do_sign in H.
    apply bind_inv in H as [(d & w1 & G0 & H)|[(e & _ & X)|(e & _ & X)]]; [|discriminate..].
    apply bind_inv in H as [(u1 & w2 & G1 & H)|[(e & _ & X)|(e & _ & X)]]; [|discriminate..].
    apply bind_inv in H as [(u2 & w3 & G2 & H)|[(e & _ & X)|(e & _ & X)]]; [|discriminate..].
    apply crypto_inv in G1 as (c1 & -> & [(a1 & A1 & B1)|(e & A1 & _)]); [|discriminate]. apply ok_inj in A1. subst a1.
    apply crypto_inv in G2 as (c2 & -> & [(a2 & A2 & B2)|(e & A2 & _)]); [|discriminate]. apply ok_inj in A2. subst a2.
    apply crypto_inv in H as (c3 & -> & [(a3 & A3 & B3)|(e & A3 & _)]); [|discriminate]. apply ok_inj in A3. subst a3.
    cbn [w_c] in *. destruct u1, u2. rewrite <- (digest_is _ _ _ _ _ W L G0). exact (fb_sign _ _ _ _ Fb _ _ _ _ _ _ _ _ _ _ B1 B2 B3).
  Qed.
End Key.

Lemma same_split (x : bytes) : forall y u v, length x = length y -> x ++ u = y ++ v -> x = y /\ u = v.
Proof.
  induction x as [|p x IH]; intros [|q y] u v L E; try discriminate; [auto|].
  cbn [length app] in L, E. injection E as -> E. destruct (IH y u v) as [-> ->]; auto.
Qed.
(** Equal measured bytes come from equally measured contexts. *)
Lemma measured_injective cf vid sku chain s s' x x' cts cts' :
  wf cf s -> wf cf s' -> lineage s x cts -> lineage s' x' cts' -> existsb c_dice cts = existsb c_dice cts' ->
  measured_bytes cf (st_support s) vid sku chain cts = measured_bytes cf (st_support s') vid sku chain cts' ->
  Forall2 Measure.same_measured cts cts' /\ existsb c_info cts = existsb c_info cts'.
Proof.
  intros W W' L L' ED E. pose proof (lineage_slots cf s x cts W L) as A. pose proof (lineage_slots cf s' x' cts' W' L') as A'.
  unfold measured_bytes in E. rewrite <- ED in E. set (t := if existsb c_dice cts then chain else []) in E.
  pose proof (f_equal (@length N) E) as EL. rewrite !app_length, (nodes_length cf s cts A), (nodes_length cf s' cts' A') in EL.
  assert (I : forall b sup, length (if b : bool then info_input cf sup vid sku else []) = if b then 36 else 0)
    by (intros [] sup; [apply info_length|reflexivity]).
  unfold bytes in I. rewrite !I in EL.
  assert (NL : length cts = length cts' /\ existsb c_info cts = existsb c_info cts').
  { clear - EL. destruct (tci_size_cases cf) as [Et|Et]; rewrite Et in EL; destruct (existsb c_info cts), (existsb c_info cts'); split; try reflexivity;
      destruct (Nat.lt_trichotomy (length cts) (length cts')) as [?|[?|?]]; lia. }
  destruct NL as [NL EI]. split; [|exact EI]. exact (proj1 (nodes_inj cf s s' cts cts' _ _ A A' NL E)).
Qed.
