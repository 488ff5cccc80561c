(** Steps.v -- every command changes the state by a sequence of elementary
    changes, and every elementary change preserves well-formedness. *)
From Coq Require Import Relations.
From Verif Require Import Base Errors Types StateOps Env Wire Instance Commands Lib Spec Exec
  Effects Forest DestroyProofs History.
Local Open Scope nat_scope.
Open Scope dpe_scope.

(** ** Flag accessors are bit tests *)
Lemma contains_bit v i : contains v (bit i) = N.testbit v i.
Proof.
  unfold contains, bit. rewrite N.shiftl_1_l.
  destruct (N.eqb_spec (N.land v (2 ^ i)) (2 ^ i)) as [E|E].
  - symmetry. apply (f_equal (fun x => N.testbit x i)) in E.
    rewrite N.land_spec, N.pow2_bits_true, andb_true_r in E. exact E.
  - destruct (N.testbit v i) eqn:T; [|reflexivity]. exfalso; apply E.
    apply N.bits_inj; intros j. rewrite N.land_spec.
    destruct (N.eq_dec i j) as [<-|Hne].
    + rewrite T. reflexivity.
    + rewrite N.pow2_bits_false by auto. apply andb_false_r.
Qed.

(** ** Elementary changes *)
Section Change.
  Variable cf : config.
  (** [HF l d]: a hash of the concatenation of [l] was computed as [d]. *)
  Variable HF : list bytes -> bytes -> Prop.
  (** Are the handles of parent and child known to differ? *)
  Variable nr : Prop.
  (** Where may contexts be initialised? *)
  Variable OI : state -> N -> Prop.

  Definition no_default (s : state) (loc : N) : Prop :=
    forall i, ~ names s (repeat 0%N 16) loc i.

  (** [retire]: is the parent retired by the derivation? *)
  Definition parent_after (s : state) (retire : bool) (pc pc' : context) : Prop :=
    if retire then pc' = set_handle invalid_handle (set_state Retired pc)
    else (c_handle pc = default_handle /\ pc' = pc) \/
         (c_handle pc <> default_handle /\ exists h, gen_ok s h /\ pc' = set_handle h pc).

  Inductive change : state -> state -> Prop :=
  | ch_init_normal s loc idx :
      first_slot (inactive_at s) idx -> st_init s = false -> u32 loc -> OI s loc ->
      change s (put_ctx (set_init true s) idx (init_context cf Normal loc default_handle true))
  | ch_init_simulation s loc idx h :
      first_slot (inactive_at s) idx -> sup_simulation (st_support s) = true -> u32 loc ->
      gen_ok s h -> OI s loc ->
      change s (put_ctx s idx (init_context cf Simulation loc h false))
  | ch_fresh s idx c h :
      at_slot s idx c -> c_state c = Active -> gen_ok s h ->
      change s (put_ctx s idx (set_handle h c))
  | ch_default s idx c :
      at_slot s idx c -> c_state c = Active -> no_default s (c_locality c) ->
      (forall i ci, at_slot s i ci -> c_state ci = Active -> c_locality ci = c_locality c ->
                    c_handle ci <> default_handle -> i = idx) ->
      change s (put_ctx s idx (set_handle default_handle c))
  | ch_extend s idx c d m :
      at_slot s idx c -> c_state c = Active -> byte_string (tci_size cf) m ->
      HF [tci_cumulative (c_tci c); m] d -> length d = length (tci_cumulative (c_tci c)) ->
      all_bytes d ->
      change s (put_ctx s idx (set_tci (extend (c_tci c) d m) c))
  | ch_retire s idx c j :
      at_slot s idx c -> c_state c = Active -> has_bit (c_children c) j ->
      change s (put_ctx s idx (set_handle invalid_handle (set_state Retired c)))
  | ch_child s parent pc pc' retire child h ty d m target svn info dice x ex rc :
      at_slot s parent pc -> c_state pc = Active ->
      first_slot (inactive_at s) child ->
      parent_after s retire pc pc' ->
      (forall i c, at_slot s i c -> live c -> c_parent c = parent -> tci_type (c_tci c) <> ty) ->
      ((h = default_handle /\
        forall i ci, at_slot s i ci -> c_state ci = Active -> c_locality ci = target ->
                     i = parent /\ retire = true /\ c_handle ci = default_handle) \/
       (gen_ok s h /\
        (forall i, first_slot (names s default_handle target) i -> i = parent /\ retire = true) /\
        (nr -> retire = false -> h <> c_handle pc'))) ->
      u32 ty -> u32 target -> u32 svn ->
      byte_string (tci_size cf) m ->
      HF [repeat 0%N (tci_size cf); m] d -> byte_string (tci_size cf) d ->
      (info = true -> supports s INTERNAL_INFO) -> (dice = true -> supports s INTERNAL_DICE) ->
      (x = true -> supports s X509 /\ c_x509 pc = true) ->
      (ex = true -> c_export pc = true) -> (rc = true -> c_recursive pc = true) ->
      change s
        (put_ctx (put_ctx s child (mkCtx h (mkTci ty d m target svn) 0 target parent (c_type pc)
                                         Active info dice x ex rc))
                 parent (set_children (N.lor (c_children pc) (N.shiftl 1 (N.of_nat child))) pc'))
  | ch_destroy s t s' :
      live_at s t -> (exists c, at_slot s t c /\ c_state c = Active) ->
      pruned cf s (doomed s t) s' -> change s s'.

  Definition changes : state -> state -> Prop := clos_refl_trans state change.

  (** ** Well-formedness is preserved *)
  Hypothesis Hcf : config_ok cf.

  Lemma default_bytes : byte_string 16 default_handle.
  Proof. split; [reflexivity|]. unfold default_handle; cbn. repeat constructor. Qed.
  Lemma invalid_bytes : byte_string 16 invalid_handle.
  Proof. split; [reflexivity|]. unfold invalid_handle; cbn. repeat constructor. Qed.
  Lemma gen_bytes s h : gen_ok s h -> byte_string 16 h.
  Proof. intros (_ & H1 & H2 & _); split; assumption. Qed.
  Lemma zero_bytes n : byte_string n (repeat 0%N n).
  Proof.
    split; [apply repeat_length|]. induction n; cbn; constructor; [reflexivity|assumption].
  Qed.

  Definition same_shape (c c' : context) : Prop :=
    c_parent c' = c_parent c /\ c_children c' = c_children c /\ c_type c' = c_type c /\
    c_x509 c' = c_x509 c /\ c_export c' = c_export c /\ c_recursive c' = c_recursive c /\
    tci_type (c_tci c') = tci_type (c_tci c).

  Lemma slot_ok_ext s s' c : st_support s' = st_support s -> slot_ok cf s c -> slot_ok cf s' c.
  Proof.
    intros E [].
    constructor; try assumption; unfold supports in *; rewrite E; assumption.
  Qed.

  (** Replacing the contents of a slot without touching its shape. *)
  Lemma wf_update s i c c' :
    wf cf s -> at_slot s i c -> live c -> live c' -> same_shape c c' -> slot_ok cf s c' ->
    (c_state c' = Retired -> exists j, has_bit (c_children c) j) ->
    wf cf (put_ctx s i c').
  Proof.
    intros W Hc Hl Hl' (S1 & S2 & S3 & S4 & S5 & S6 & S7) Hok Hret.
    assert (Hlt := at_lt _ _ _ Hc).
    assert (BW : forall j d', at_slot (put_ctx s i c') j d' -> exists d, at_slot s j d /\
              (live d' -> live d) /\ c_parent d' = c_parent d /\ c_type d' = c_type d /\
              c_x509 d' = c_x509 d /\ c_export d' = c_export d /\ c_recursive d' = c_recursive d /\
              tci_type (c_tci d') = tci_type (c_tci d)).
    { intros j d' Hd'. apply at_put_iff in Hd' as [(<- & _ & ->)|[Hne Hd']]; [exists c|exists d']; auto 10. }
    constructor.
    - eapply forest_update; eauto. apply W.
    - apply W.
    - apply W.
    - intros j d Hd'. apply at_put_iff in Hd' as [(<- & _ & ->)|[Hne Hd']].
      + apply (slot_ok_ext s); [reflexivity|assumption].
      + apply (slot_ok_ext s); [reflexivity|]. eapply wf_slot; eauto.
    - intros j d p pd Hj Hlj Hp Hpd. apply BW in Hj as (d0 & Hj & L & E1 & E2 & E3 & E4 & E5 & _).
      apply BW in Hpd as (p0 & Hpd & _ & F1 & F2 & F3 & F4 & F5 & _).
      unfold inherits. rewrite E2, E3, E4, E5, F2, F3, F4, F5.
      eapply wf_inherits; eauto; congruence.
    - intros j k d e Hd' He' Ld Le EP NR ET.
      apply BW in Hd' as (d0 & Hd0 & L1 & E1 & _ & _ & _ & _ & E2).
      apply BW in He' as (e0 & He0 & L2 & G1 & _ & _ & _ & _ & G2).
      eapply (wf_siblings _ _ W j k d0 e0); eauto; congruence.
    - intros j k d e Hd' He' Ld Le EP NR ET ET'.
      apply BW in Hd' as (d0 & Hd0 & L1 & E1 & E2 & _).
      apply BW in He' as (e0 & He0 & L2 & G1 & G2 & _).
      eapply (wf_one_normal_root _ _ W j k d0 e0); eauto; congruence.
    - intros j d Hd' Ld ET. apply BW in Hd' as (d0 & Hd0 & L1 & E1 & E2 & _).
      apply (wf_initialized _ _ W j d0); auto. congruence.
  Qed.

  Lemma wf_set_init s : wf cf s -> wf cf (set_init true s).
  Proof.
    intros W. constructor; try apply W.
    - eapply forest_ext; [|apply W]. reflexivity.
    - intros i c Hc. apply (slot_ok_ext s); [reflexivity|]. eapply (wf_slot _ _ W); exact Hc.
    - intros; reflexivity.
  Qed.

  (** A free slot becomes a root. *)
  Lemma wf_new_root s i c old :
    wf cf s -> at_slot s i old -> c_state old = Inactive ->
    c_state c = Active -> c_parent c = ROOT -> c_children c = 0%N -> slot_ok cf s c ->
    (c_type c = Normal -> st_init s = true /\
       forall j d, at_slot s j d -> live d -> c_type d <> Normal) ->
    wf cf (put_ctx s i c).
  Proof.
    intros W Hold Hin Hact Hpar Hch Hok Hn.
    assert (Lc : live c) by (unfold live; congruence).
    assert (NL : ~ live old) by (unfold live; congruence).
    constructor.
    - eapply forest_new_root; eauto. apply W.
    - apply W.
    - apply W.
    - intros j d Hd'. apply at_put_iff in Hd' as [(<- & _ & ->)|[Hne Hd']].
      + apply (slot_ok_ext s); [reflexivity|assumption].
      + apply (slot_ok_ext s); [reflexivity|]. eapply wf_slot; eauto.
    - intros j d p pd Hj Hlj Hp Hpd.
      apply at_put_iff in Hj as [(<- & _ & ->)|[Hne Hj]].
      + exfalso. apply at_lt in Hpd. cbn in Hpd. rewrite length_upd, (fo_size _ _ (wf_forest _ _ W)) in Hpd.
        destruct Hcf as (Hm & _). rewrite Hpar in Hp. unfold ROOT in Hp. lia.
      + assert (Hp2 : p <> i).
        { intros ->. destruct (Nat.eq_dec (c_parent d) ROOT) as [R|R].
          - apply at_lt in Hpd. cbn in Hpd. rewrite length_upd, (fo_size _ _ (wf_forest _ _ W)) in Hpd.
            destruct Hcf as (Hm & _). rewrite Hp in R. unfold ROOT in R. lia.
          - destruct (fo_up _ _ (wf_forest _ _ W) j d Hj Hlj R) as (q & Q1 & Q2 & _).
            rewrite Hp in Q1. rewrite (at_det _ _ _ _ Q1 Hold) in Q2. contradiction. }
        apply at_put_iff in Hpd as [(E & _)|[_ Hpd]]; [congruence|]. eapply wf_inherits; eauto.
    - intros j k d e Hd' He' Ld Le EP NR ET.
      apply at_put_iff in Hd' as [(<- & _ & ->)|[Hne Hd']]; [congruence|].
      apply at_put_iff in He' as [(<- & _ & ->)|[Hne' He']]; [congruence|].
      eapply (wf_siblings _ _ W j k d e); eauto.
    - intros j k d e Hd' He' Ld Le EP NR ET ET'.
      apply at_put_iff in Hd' as [(<- & _ & ->)|[Hne Hd']];
        apply at_put_iff in He' as [(<- & _ & ->)|[Hne' He']].
      + reflexivity.
      + destruct (Hn ET) as [_ X]. destruct (X k e He' Le ET').
      + destruct (Hn ET') as [_ X]. destruct (X j d Hd' Ld ET).
      + eapply (wf_one_normal_root _ _ W j k d e); eauto.
    - intros j d Hd' Ld ET. apply at_put_iff in Hd' as [(<- & _ & ->)|[Hne Hd']]; [apply Hn; exact ET|].
      cbn. eapply (wf_initialized _ _ W); eauto.
  Qed.

  (** A free slot becomes a child. *)
  Lemma wf_new_child s i p c pc pc' old :
    wf cf s -> at_slot s i old -> c_state old = Inactive ->
    at_slot s p pc -> live pc -> live pc' ->
    c_state c = Active -> c_parent c = p -> c_children c = 0%N ->
    c_parent pc' = c_parent pc ->
    c_children pc' = N.lor (c_children pc) (N.shiftl 1 (N.of_nat i)) ->
    c_type pc' = c_type pc -> c_x509 pc' = c_x509 pc -> c_export pc' = c_export pc ->
    c_recursive pc' = c_recursive pc -> tci_type (c_tci pc') = tci_type (c_tci pc) ->
    slot_ok cf s c -> slot_ok cf s pc' -> inherits pc c ->
    (forall j d, at_slot s j d -> live d -> c_parent d = p ->
                 tci_type (c_tci d) <> tci_type (c_tci c)) ->
    wf cf (put_ctx (put_ctx s i c) p pc').
  Proof.
    intros W Hold Hin Hpc Lpc Lpc' Hact Hpar Hch E1 E2 E3 E4 E5 E6 E7 Hok Hok' Hinh Hsib.
    assert (Lc : live c) by (unfold live; congruence).
    assert (NL : ~ live old) by (unfold live; congruence).
    assert (Hne : i <> p). { intros ->. rewrite (at_det _ _ _ _ Hold Hpc) in NL. contradiction. }
    assert (HR : p <> ROOT) by (eapply root_not_slot; eauto; apply W).
    (* slots of the new state *)
    assert (BW : forall j d', at_slot (put_ctx (put_ctx s i c) p pc') j d' ->
       (j = i /\ d' = c) \/
       (j <> i /\ exists d, at_slot s j d /\ (live d' -> live d) /\ c_parent d' = c_parent d /\
          c_type d' = c_type d /\ c_x509 d' = c_x509 d /\ c_export d' = c_export d /\
          c_recursive d' = c_recursive d /\ tci_type (c_tci d') = tci_type (c_tci d) /\
          slot_ok cf s d')).
    { intros j d' H. apply at_put_iff in H as [(<- & _ & ->)|[Hnp H]].
      - right. split; [auto|]. exists pc. auto 10.
      - apply at_put_iff in H as [(<- & _ & ->)|[Hni H]]; [left; auto|].
        right. split; [auto|]. exists d'. repeat (split; [auto|]). eapply wf_slot; eauto. }
    constructor.
    - eapply (forest_new_child cf Hcf s i p c pc pc' old); eauto. apply W.
    - apply W.
    - apply W.
    - intros j d' Hd'. apply (slot_ok_ext s); [reflexivity|].
      apply BW in Hd' as [[-> ->]|(_ & d & _ & _ & _ & _ & _ & _ & _ & _ & X)]; auto.
    - intros j d' q qd Hj Hlj Hq Hqd.
      apply BW in Hj as [[-> ->]|(Hji & d & Hd & L & F1 & F2 & F3 & F4 & F5 & _)].
      + rewrite Hpar in Hq. subst q. apply BW in Hqd as [[E _]|(_ & d & Hd & _ & _ & F2 & F3 & F4 & F5 & _)].
        { congruence. }
        rewrite (at_det _ _ _ _ Hd Hpc) in *. unfold inherits in *. rewrite F2, F3, F4, F5. exact Hinh.
      + apply BW in Hqd as [[-> ->]|(_ & e & He & _ & _ & G2 & G3 & G4 & G5 & _)].
        * exfalso. destruct (fo_up _ _ (wf_forest _ _ W) j d Hd (L Hlj)) as (o & O1 & O2 & _).
          { rewrite <- F1, Hq. eapply root_not_slot; eauto; apply W. }
          rewrite <- F1, Hq in O1. rewrite (at_det _ _ _ _ O1 Hold) in O2. contradiction.
        * unfold inherits. rewrite F2, F3, F4, F5, G2, G3, G4, G5.
          eapply (wf_inherits _ _ W j d q e); eauto. congruence.
    - intros j k d' e' Hd' He' Ld Le EP NR ET.
      apply BW in Hd' as [[-> ->]|(Hji & d & Hd & L & F1 & _ & _ & _ & _ & F2 & _)];
        apply BW in He' as [[-> ->]|(Hki & e & He & L' & G1 & _ & _ & _ & _ & G2 & _)].
      + reflexivity.
      + exfalso. apply (Hsib k e He); auto; congruence.
      + exfalso. apply (Hsib j d Hd); auto; congruence.
      + eapply (wf_siblings _ _ W j k d e); eauto; congruence.
    - intros j k d' e' Hd' He' Ld Le EP NR ET ET'.
      apply BW in Hd' as [[-> ->]|(Hji & d & Hd & L & F1 & F2 & _)]; [congruence|].
      apply BW in He' as [[-> ->]|(Hki & e & He & L' & G1 & G2 & _)]; [congruence|].
      eapply (wf_one_normal_root _ _ W j k d e); eauto; congruence.
    - intros j d' Hd' Ld ET. cbn.
      apply BW in Hd' as [[-> ->]|(Hji & d & Hd & L & F1 & F2 & _)].
      + apply (wf_initialized _ _ W p pc); auto. destruct Hinh as [X _]. congruence.
      + apply (wf_initialized _ _ W j d); auto. congruence.
  Qed.

  Lemma wf_pruned s (D : nat -> Prop) s' :
    (forall i, D i \/ ~ D i) ->
    wf cf s -> pruned cf s D s' ->
    (forall p i, D p -> child_of s p i -> D i) ->
    (forall i c k, at_slot s i c -> c_state c = Retired -> child_of s i k ->
                   (forall j, child_of s i j -> D j) -> D i) ->
    wf cf s'.
  Proof.
    intros Dd W Hp Dc Dr. pose proof Hp as ((G1 & G2 & G3 & G4 & G5 & G6) & L & HS).
    assert (BW : forall i c', at_slot s' i c' -> exists c, at_slot s i c /\
               ((blank cf c' /\ c_handle c' = repeat 255%N 16 /\ c_type c' = c_type c /\
                 c_export c' = c_export c) \/ same_but_children c c')).
    { intros i c' Hc'. pose proof (at_lt _ _ _ Hc') as Hlt. rewrite L in Hlt.
      apply nth_error_ex in Hlt as (c & Hc). exists c; split; [exact Hc|].
      destruct (HS i c Hc) as (c2 & H1 & H2 & H3). rewrite (at_det _ _ _ _ Hc' H1).
      destruct (Dd i) as [Hi|Hi]; [left; apply H2; exact Hi|right; apply H3; exact Hi]. }
    (* a live slot of the new state was live before *)
    assert (LV : forall i c', at_slot s' i c' -> live c' -> exists c, at_slot s i c /\ live c /\
               same_but_children c c').
    { intros i c' Hc' Hl'. destruct (BW i c' Hc') as (c & Hc & [[(B & _) _]|S]); [destruct (Hl' B)|].
      exists c; split; [exact Hc|]. split; [|exact S]. unfold live in *.
      replace (c_state c) with (c_state c'); [exact Hl'|]. apply S. }
    assert (F : forest cf s') by (eapply (forest_pruned cf Hcf s D s'); eauto; apply W).
    constructor.
    - exact F.
    - rewrite G1; apply W.
    - rewrite G2; apply W.
    - intros i c' Hc'. apply (slot_ok_ext s); [exact G3|].
      destruct (BW i c' Hc') as (c & Hc & [(B & Bh & Bt & Be)|S]).
      + pose proof (wf_slot _ _ W i c Hc) as O. pose proof B as (B1 & B2 & B3 & B4 & B5 & B6 & B7 & B8 & B9).
        constructor; try (rewrite B2; cbn); try (rewrite Bh); try apply zero_bytes; try reflexivity;
          try congruence; try (intros _; exact B).
        * apply invalid_bytes.
        * rewrite B4; reflexivity.
        * rewrite Bt; apply O.
      + pose proof (wf_slot _ _ W i c Hc) as [O1 O2 O3 O4 O5 O6 O7 O8 O9 O10 O11 O12 O13].
        destruct S as (T1 & T2 & T3 & T4 & T5 & T6 & T7 & T8 & T9 & T10 & T11).
        constructor; rewrite ?T1, ?T2, ?T3, ?T4, ?T5, ?T6, ?T7, ?T8, ?T9, ?T10, ?T11; try assumption.
        intros I. specialize (O8 I).
        assert (E : c_children c' = 0%N).
        { apply N.bits_inj. intros n. rewrite N.bits_0. destruct (N.testbit (c_children c') n) eqn:Tb; [|reflexivity].
          exfalso. destruct (fo_down _ _ F i c' (N.to_nat n) Hc') as [X _].
          - unfold has_bit. rewrite N2Nat.id. exact Tb.
          - apply X. congruence. }
        destruct O8 as (U1 & U2 & U3 & U4 & U5 & U6 & U7 & U8 & U9).
        unfold blank. rewrite T2, T3, T4, T6, T7, T8, T9, T11. auto 12.
    - intros i c' p pc' Hc' Hl' Ep Hpc'. destruct (LV i c' Hc' Hl') as (c & Hc & Hl & S).
      assert (HR : p <> ROOT) by (eapply (root_not_slot cf s'); eauto; apply F).
      destruct (fo_up _ _ F i c' Hc' Hl') as (q & Q1 & Q2 & _); [congruence|].
      rewrite Ep in Q1. rewrite (at_det _ _ _ _ Hpc' Q1) in *.
      destruct (LV p q Q1 Q2) as (pc & Hpc & Hlp & S').
      pose proof (wf_inherits _ _ W i c p pc Hc Hl) as I.
      destruct S as (T1 & T2 & T3 & T4 & T5 & T6 & T7 & T8 & T9 & T10 & T11).
      destruct S' as (V1 & V2 & V3 & V4 & V5 & V6 & V7 & V8 & V9 & V10 & V11).
      unfold inherits in *. rewrite T5, T9, T10, T11, V5, V9, V10, V11. apply I; [congruence|exact Hpc].
    - intros i j c' d' Hc' Hd' Lc Ld EP NR ET.
      destruct (LV i c' Hc' Lc) as (c & Hc & Hl & S). destruct (LV j d' Hd' Ld) as (d & Hd0 & Hl2 & S2).
      destruct S as (T1 & T2 & T3 & T4 & T5 & T6 & T7 & T8 & T9 & T10 & T11).
      destruct S2 as (V1 & V2 & V3 & V4 & V5 & V6 & V7 & V8 & V9 & V10 & V11).
      eapply (wf_siblings _ _ W i j c d); eauto; congruence.
    - intros i j c' d' Hc' Hd' Lc Ld EP NR ET ET'.
      destruct (LV i c' Hc' Lc) as (c & Hc & Hl & S). destruct (LV j d' Hd' Ld) as (d & Hd0 & Hl2 & S2).
      destruct S as (T1 & T2 & T3 & T4 & T5 & T6 & T7 & T8 & T9 & T10 & T11).
      destruct S2 as (V1 & V2 & V3 & V4 & V5 & V6 & V7 & V8 & V9 & V10 & V11).
      eapply (wf_one_normal_root _ _ W i j c d); eauto; congruence.
    - intros i c' Hc' Lc ET. rewrite G5. destruct (LV i c' Hc' Lc) as (c & Hc & Hl & S).
      apply (wf_initialized _ _ W i c); auto. rewrite <- ET. symmetry; apply S.
  Qed.

  Lemma wf_new sup fl : wf cf (state_new cf sup fl).
  Proof.
    assert (A : forall i c, at_slot (state_new cf sup fl) i c -> c = ctx_new cf).
    { intros i c H. unfold at_slot, state_new in H; cbn in H. apply nth_error_repeat_iff in H. tauto. }
    assert (NL : forall i c, at_slot (state_new cf sup fl) i c -> ~ live c).
    { intros i c H X. rewrite (A i c H) in X. apply X; reflexivity. }
    constructor; try reflexivity; try (intros; exfalso; match goal with H : live _ |- _ => eapply NL; [|exact H]; eassumption end).
    - apply forest_new.
    - intros i c Hc. rewrite (A i c Hc). constructor; cbn; try apply zero_bytes; try apply default_bytes; try reflexivity; try discriminate.
      intros _. unfold blank; cbn. auto 12.
  Qed.

  Theorem change_wf s s' : change s s' -> wf cf s -> wf cf s'.
  Proof.
    intros Hch W. destruct Hch.
    - (* init normal *)
      destruct H as [(old & Ho & Hin) _].
      eapply wf_new_root; [apply wf_set_init; exact W|exact Ho|exact Hin|reflexivity|reflexivity|reflexivity| |].
      + constructor; cbn; try apply zero_bytes; try apply default_bytes; try reflexivity; try discriminate; try assumption.
        intros _ X; exfalso; apply X; reflexivity.
      + intros _. split; [reflexivity|]. intros j d Hj Hl Hn.
        pose proof (wf_initialized _ _ W j d Hj Hl Hn). congruence.
    - (* init simulation *)
      destruct H as [(old & Ho & Hin) _].
      eapply wf_new_root; [exact W|exact Ho|exact Hin|reflexivity|reflexivity|reflexivity| |discriminate].
      constructor; cbn; try apply zero_bytes; try (eapply gen_bytes; eassumption); try reflexivity; try discriminate; try assumption.
      + intros _. unfold supports. rewrite <- contains_bit. exact H0.
      + intros _ X; exfalso; apply X; reflexivity.
    - eapply wf_update; [exact W|exact H|unfold live; congruence|unfold live; cbn; congruence|repeat split| |cbn; congruence].
      pose proof (wf_slot _ _ W _ _ H) as []. constructor; cbn; try assumption; try congruence.
      eapply gen_bytes; eauto.
    - eapply wf_update; [exact W|exact H|unfold live; congruence|unfold live; cbn; congruence|repeat split| |cbn; congruence].
      pose proof (wf_slot _ _ W _ _ H) as []. constructor; cbn; try assumption; try congruence.
      apply default_bytes.
    - eapply wf_update; [exact W|exact H|unfold live; congruence|unfold live; cbn; congruence|repeat split| |cbn; congruence].
      pose proof (wf_slot _ _ W _ _ H) as []. constructor; cbn; try assumption; try congruence.
      split; [|assumption]. destruct so_cumulative as [X _]. congruence.
    - eapply wf_update; [exact W|exact H|unfold live; congruence|unfold live; cbn; congruence|repeat split| |eauto].
      pose proof (wf_slot _ _ W _ _ H) as []. constructor; cbn; try assumption; try discriminate.
      + apply invalid_bytes.
      + reflexivity.
    - (* child *)
      destruct H1 as [(old & Ho & Hin) _].
      assert (PA : c_parent pc' = c_parent pc /\ c_children pc' = c_children pc /\ c_type pc' = c_type pc /\
                   c_x509 pc' = c_x509 pc /\ c_export pc' = c_export pc /\ c_recursive pc' = c_recursive pc /\
                   c_tci pc' = c_tci pc /\ live pc' /\ slot_ok cf s pc').
      { pose proof (wf_slot _ _ W _ _ H) as O. unfold parent_after in H2. destruct retire.
        - subst pc'. repeat (split; [first [reflexivity|discriminate]|]). destruct O; constructor; cbn; try assumption; try discriminate.
          + apply invalid_bytes.
          + reflexivity.
        - destruct H2 as [[_ ->]|(_ & h' & Hg & ->)].
          + repeat (split; [first [reflexivity|unfold live; congruence]|]). exact O.
          + repeat (split; [first [reflexivity|unfold live; cbn; congruence]|]). destruct O.
            constructor; cbn; try assumption; try congruence. eapply gen_bytes; eauto. }
      destruct PA as (P1 & P2 & P3 & P4 & P5 & P6 & P7 & P8 & P9).
      eapply wf_new_child; [exact W|exact Ho|exact Hin|exact H|unfold live; congruence|exact P8|reflexivity|
        reflexivity|reflexivity|exact P1|reflexivity|exact P3|exact P4|exact P5|exact P6|cbn; congruence| | | |].
      + constructor; cbn; try assumption; try discriminate; try reflexivity.
        * destruct H4 as [[-> _]|[Hg _]]; [apply default_bytes|eapply gen_bytes; eauto].
        * intros X. pose proof (wf_slot _ _ W _ _ H) as O. exact (so_simulation _ _ _ O X).
        * intros X _. apply H13; exact X.
      + destruct P9. constructor; cbn; try assumption.
        intros X. exfalso; apply P8; exact X.
      + repeat split; cbn; try assumption. intros X; apply H13; exact X.
      + cbn. assumption.
    - eapply (wf_pruned s (doomed s t) s'); eauto.
      + apply (doomed_dec cf); auto. apply W.
      + intros; eapply doomed_child; eauto.
      + intros; eapply doomed_retired; eauto.
  Qed.

  Theorem changes_wf s s' : changes s s' -> wf cf s -> wf cf s'.
  Proof. induction 1; eauto using change_wf. Qed.
End Change.

(** ** Commands are sequences of elementary changes *)
Lemma put_same s i c : at_slot s i c -> put_ctx s i c = s.
Proof. intros H. unfold put_ctx. rewrite upd_same by exact H. destruct s; reflexivity. Qed.

Lemma put_put s i a b : put_ctx (put_ctx s i a) i b = put_ctx s i b.
Proof.
  unfold put_ctx, set_contexts; cbn. f_equal. apply list_ext. intros k.
  destruct (Nat.eq_dec i k) as [<-|Hne].
  - destruct (Nat.lt_ge_cases i (length (st_contexts s))) as [Hl|Hl].
    + rewrite !nth_error_upd_eq; rewrite ?length_upd; auto.
    + transitivity (@None context); [|symmetry]; apply nth_error_None; rewrite !length_upd; exact Hl.
  - rewrite !nth_error_upd_ne by assumption. reflexivity.
Qed.

Lemma gen_ok_put s i c c' h :
  at_slot s i c -> c_handle c' = c_handle c -> gen_ok s h -> gen_ok (put_ctx s i c') h.
Proof.
  intros Hc Hh (H1 & H2 & H3 & H4). split; [exact H1|]. split; [exact H2|]. split; [exact H3|].
  intros d Hin. apply In_nth_error in Hin as (k & Hk).
  apply (proj1 (at_put_iff s i c' k d)) in Hk as [(_ & _ & ->)|[_ Hk]].
  - rewrite Hh. apply H4. eapply nth_error_In; eauto.
  - apply H4. eapply nth_error_In; eauto.
Qed.

Section Commands.
  Variable cf : config.
  Variable e : env.
  Hypothesis Hcf : config_ok cf.
  Notation HF := (hashed (e_C e) (e_P e) (e_crypto e)).
  Notation nr := (no_repeat (e_crypto e)).
  Variable OI : state -> N -> Prop.
  Notation change := (change cf HF nr OI).
  Notation changes := (changes cf HF nr OI).

  (** The restriction [OI] in terms of commands. *)
  Definition init_allowed (s : state) (cmd : command) (loc : N) : Prop :=
    forall f, cmd = CmdInitCtx f -> (N.testbit f 30 = true /\ st_init s = true) \/ OI s loc.

  Lemma one s s' : change s s' -> changes s s'.
  Proof. apply rt_step. Qed.
  Lemma none s s' : s' = s -> changes s s'.
  Proof. intros ->. apply rt_refl. Qed.

  Lemma rolled_changes s i c c' :
    at_slot s i c -> c_state c = Active -> rolled s c c' -> changes s (put_ctx s i c').
  Proof.
    intros Hc Ha [[_ ->]|(_ & h & Hg & ->)].
    - apply none, put_same, Hc.
    - apply one, ch_fresh; assumption.
  Qed.

  Lemma hashed_bytes l d : HF l d -> all_bytes d.
  Proof. intros (w & dg & w' & _ & ->). unfold digest_bytes. destruct dg; apply all_bytes_to_buf. Qed.

  Lemma extend_rolled_changes s i c c' d m :
    at_slot s i c -> c_state c = Active -> byte_string (tci_size cf) m ->
    HF [tci_cumulative (c_tci c); m] d -> length d = length (tci_cumulative (c_tci c)) ->
    rolled s (set_tci (extend (c_tci c) d m) c) c' ->
    changes s (put_ctx s i c').
  Proof.
    intros Hc Ha Hm Hh Hl Hr.
    set (c1 := set_tci (extend (c_tci c) d m) c) in *.
    eapply rt_trans; [apply one; eapply (ch_extend cf HF nr OI s i c d m); eauto; eapply hashed_bytes; eauto|].
    fold c1. rewrite <- (put_put s i c1 c'). eapply rolled_changes.
    - apply at_put_iff; left; repeat split. eapply at_lt; eauto.
    - exact Ha.
    - destruct Hr as [Hr|(H1 & h & H2 & H3)]; [left; exact Hr|right].
      split; [exact H1|]. exists h. split; [|exact H3]. eapply gen_ok_put; eauto.
  Qed.

  Lemma handle_rolled_changes h loc s s' nh :
    handle_rolled h loc s s' nh -> changes s s'.
  Proof.
    intros (i & c & c' & [(c0 & Hc0 & Ha & _) _] & Hc & Hr & -> & _).
    rewrite (at_det _ _ _ _ Hc0 Hc) in *. eapply rolled_changes; eauto.
  Qed.

  (** *** Reading the conditions of DeriveContext *)
  Lemma tci_type_unique_true s l ty :
    tci_type_unique s l ty = Ok true ->
    forall i c, In i l -> at_slot s i c -> tci_type (c_tci c) <> ty.
  Proof.
    induction l as [|k l IH]; cbn [tci_type_unique]; intros H i c Hin Hc; [destruct Hin|].
    destruct (get_ctx s k) as [ck|] eqn:G; cbn [ok_or rbind] in H; [|discriminate].
    destruct (N.eqb_spec (tci_type (c_tci ck)) ty) as [X|X]; [discriminate|].
    destruct Hin as [<-|Hin]; [|eauto].
    apply (proj1 (get_ctx_at _ _ _)) in G. rewrite (at_det _ _ _ _ Hc G). exact X.
  Qed.

  Lemma sibling_free_spec s p pc ty :
    forest cf s -> at_slot s p pc -> sibling_free cf s pc ty ->
    forall i c, at_slot s i c -> live c -> c_parent c = p -> tci_type (c_tci c) <> ty.
  Proof.
    intros F Hp Hs i c Hc Hl E. eapply tci_type_unique_true; eauto.
    apply (in_children cf Hcf s p pc i F Hp). exists c; auto.
  Qed.

  Lemma filter_one {A} (f : A -> bool) l x y :
    length (filter f l) = 1 -> In x l -> In y l -> f x = true -> f y = true -> x = y.
  Proof.
    intros L Hx Hy Fx Fy.
    assert (Ix : In x (filter f l)) by (apply filter_In; auto).
    assert (Iy : In y (filter f l)) by (apply filter_In; auto).
    destruct (filter f l) as [|a [|b r]]; cbn in L; try lia.
    destruct Ix as [<-|[]]; destruct Iy as [<-|[]]; reflexivity.
  Qed.

  Lemma count_filter_pos {A} (f : A -> bool) (l : list A) : forall i j x y,
    nth_error l i = Some x -> nth_error l j = Some y -> f x = true -> f y = true ->
    i <> j -> 2 <= length (filter f l).
  Proof.
    induction l as [|a l IH]; intros i j x y Hi Hj Fx Fy Hne; [destruct i; discriminate|].
    cbn [filter]. destruct i as [|i]; destruct j as [|j]; cbn in Hi, Hj.
    - congruence.
    - inversion Hi; subst. rewrite Fx. cbn.
      assert (In y (filter f l)) by (apply filter_In; split; [eapply nth_error_In; eauto|exact Fy]).
      destruct (filter f l); [destruct H|cbn; lia].
    - inversion Hj; subst. rewrite Fy. cbn.
      assert (In x (filter f l)) by (apply filter_In; split; [eapply nth_error_In; eauto|exact Fx]).
      destruct (filter f l); [destruct H|cbn; lia].
    - assert (2 <= length (filter f l)) by (eapply (IH i j); eauto).
      destruct (f a); cbn; lia.
  Qed.

  Lemma safe_default_spec s flags parent target :
    df_make_default flags = true -> safe_to_make_child s flags parent target = true ->
    forall i ci, at_slot s i ci -> c_state ci = Active -> c_locality ci = target ->
      i = parent /\ df_retain_parent flags = false /\ c_handle ci = default_handle.
  Proof.
    unfold safe_to_make_child, safe_to_make_default. intros -> H i ci Hi Ha Hl.
    assert (Ai : active_in target ci = true) by (apply active_in_iff; auto).
    unfold count_contexts in H.
    destruct (length (filter (active_in target) (st_contexts s))) as [|[|n]] eqn:L.
    - exfalso. assert (In ci (filter (active_in target) (st_contexts s))).
      { apply filter_In; split; [eapply nth_error_In; exact Hi|exact Ai]. }
      destruct (filter (active_in target) (st_contexts s)); [destruct H0|discriminate].
    - pose proof (lookup_spec s default_handle target) as LS.
      destruct (get_active_context_pos s default_handle target) as [d|er|k]; try discriminate.
      destruct (Nat.eqb_spec d parent) as [Ed|]; [|discriminate]. rewrite Ed in *. apply negb_true_iff in H.
      destruct LS as [(cp & Hcp & Hpa & Hpl & Hph) _].
      assert (Ap : active_in target cp = true) by (apply active_in_iff; auto).
      assert (E : i = parent).
      { destruct (Nat.eq_dec i parent) as [|Hne]; [assumption|]. exfalso.
        assert (2 <= length (filter (active_in target) (st_contexts s)))
          by (eapply (count_filter_pos _ _ i parent); eauto). lia. }
      subst i. split; [reflexivity|]. split; [exact H|]. rewrite (at_det _ _ _ _ Hi Hcp). exact Hph.
    - destruct (get_active_context_pos s default_handle target); discriminate.
  Qed.

  Lemma safe_non_default_spec s flags parent target :
    df_make_default flags = false -> safe_to_make_child s flags parent target = true ->
    forall i, first_slot (names s default_handle target) i ->
      i = parent /\ df_retain_parent flags = false.
  Proof.
    unfold safe_to_make_child, safe_to_make_non_default. intros -> H i Hi.
    apply lookup_ok in Hi. rewrite Hi in H.
    destruct (Nat.eqb_spec i parent) as [Ed|]; [|discriminate]. apply negb_true_iff in H. auto.
  Qed.

  Lemma orb_false {a b} : (a || b)%bool = false -> a = false /\ b = false.
  Proof. apply orb_false_iff. Qed.

  Lemma sup_bit s i f : (negb (contains (st_support s) (bit i)) && f)%bool = false ->
    f = true -> supports s i.
  Proof.
    intros H ->. rewrite andb_true_r, negb_false_iff, contains_bit in H. exact H.
  Qed.

  Lemma derive_child_changes c loc s s' bs :
    wf cf s -> command_wf cf (CmdDeriveContext c) -> u32 loc ->
    derive_child_done cf (e_C e) (e_P e) (e_crypto e) c loc s s' bs -> changes s s'.
  Proof.
    intros W (W1 & W2 & W3 & W4 & W5 & W6) Wl
      (parent & pc & pc' & child & h & d & (Hun & Hf & Hpc & Hbad) & Hrec & Hexp & Hsib & Htp &
       Hch & Hchl & Hsafe & Hh & Hd & Hdl & Hnr & -> & ->).
    assert (Ha : c_state pc = Active).
    { destruct Hf as [(c0 & Hc0 & Ha & _) _]. rewrite (at_det _ _ _ _ Hpc Hc0). exact Ha. }
    unfold derive_unsupported, sup_internal_info, sup_internal_dice, sup_retain_parent, sup_x509,
      sup_cdi_export, sup_recursive in Hun.
    repeat (apply orb_false in Hun as [Hun ?]). unfold derive_bad_args in Hbad.
    repeat (apply orb_false in Hbad as [Hbad ?]).
    apply one. eapply (ch_child cf HF nr OI s parent pc pc' (negb (df_retain_parent (dc_flags c))) child h
                       (dc_tci_type c) d (dc_data c) (derive_target c loc) (dc_svn c)); auto.
    - unfold parent_after. destruct Htp as [[-> Hr]|[-> ->]]; cbn [negb]; [exact Hr|reflexivity].
    - eapply sibling_free_spec; eauto. apply W.
    - destruct Hh as [[Hmd ->]|[Hmd Hg]].
      + left. split; [reflexivity|]. intros i ci I1 I2 I3.
        destruct (safe_default_spec _ _ _ _ Hmd Hsafe i ci I1 I2 I3) as (X & Y & Z). rewrite Y. auto.
      + right. split; [exact Hg|]. split.
        * intros i Hi. destruct (safe_non_default_spec _ _ _ _ Hmd Hsafe i Hi) as [X Y]. rewrite Y. auto.
        * intros N R. apply Hnr; [exact N|apply negb_false_iff; exact R|apply Hg].
    - unfold derive_target. destruct (df_change_locality (dc_flags c)); assumption.
    - split; [exact Hdl|]. eapply hashed_bytes; eauto.
    - apply sup_bit; assumption.
    - apply sup_bit; assumption.
    - intros X. split; [eapply sup_bit; eauto|].
      destruct (c_x509 pc); [reflexivity|]. cbn in Hbad. rewrite X in Hbad. discriminate.
    - intros X; apply andb_true_iff in X; apply X.
    - intros X; apply andb_true_iff in X; apply X.
  Qed.

  Lemma destroy_changes h s loc s' :
    wf cf s -> destroy_context cf h s loc = Ok s' -> changes s s'.
  Proof.
    intros W H. destruct (destroy_spec cf Hcf h s loc s' (wf_forest _ _ W) H) as (t & [(c & Hc & Ha & _) _] & Hp).
    apply one. eapply ch_destroy; eauto. exists c; split; [exact Hc|unfold live; congruence].
  Qed.

  Lemma derive_changes c loc w r w' :
    wf cf (w_st w) -> command_wf cf (CmdDeriveContext c) -> u32 loc ->
    exec_derive cf (e_C e) (e_P e) (e_crypto e) (e_platform e) (e_cert e) c loc w = (r, w') ->
    changes (w_st w) (w_st w').
  Proof.
    intros W Wc Wl H.
    apply exec_derive_inv in H as [(H & _)|[(s' & bs & H & -> & _)|[(s' & bs & H & -> & _)|(s' & w2 & cr & ph & H & -> & _)]]].
    - apply none; exact H.
    - destruct H as (p & pc & pc' & d & (_ & Hf & Hpc & _) & _ & _ & _ & Hd & Hdl & Hr & -> & _).
      destruct Hf as [(c0 & Hc0 & Ha & _) _]. rewrite (at_det _ _ _ _ Hc0 Hpc) in *.
      eapply extend_rolled_changes; eauto. apply Wc.
    - eapply derive_child_changes; eauto.
    - destruct H as (p & pc & pc' & u & ue & w1 & (_ & Hf & Hpc & _) & _ & _ & _ & _ & Htp & _ & _ & _ & _ & H).
      destruct Hf as [(c0 & Hc0 & Ha & _) _]. rewrite (at_det _ _ _ _ Hc0 Hpc) in *.
      destruct H as [(Hrh & -> & _)|(_ & _ & Hds & _)]; [|eapply destroy_changes; eauto].
      destruct Htp as [[_ Hr]|[Hnr ->]].
      + eapply rolled_changes; eauto.
      + rewrite Hnr in Hrh. cbn [orb] in Hrh.
        assert (exists j, has_bit (c_children pc) j) as (j & Hj).
        { destruct (N.eq_dec (c_children pc) 0) as [E|E].
          - rewrite E in Hrh. discriminate.
          - exists (N.to_nat (N.log2 (c_children pc))). unfold has_bit. rewrite N2Nat.id. apply N.bit_log2; exact E. }
        apply one. eapply ch_retire; eauto.
  Qed.

  Lemma update_changes u loc w r w' :
    wf cf (w_st w) -> command_wf cf (CmdUpdateContextMeasurement u) -> u32 loc ->
    exec_update cf (e_C e) (e_P e) (e_crypto e) u loc w = (r, w') ->
    changes (w_st w) (w_st w').
  Proof.
    intros W Wc Wl H. apply exec_update_inv in H as [[[H _] _]|H]; [apply none; exact H|].
    destruct H as (s1 & p & ch & pc & pc' & cc & cc' & (_ & Hf & Hpc & Hfind & Hcc & (d & Hd & Hdl & ->) & Hr & ->) & H).
    destruct Hf as [(c0 & Hc0 & Ha & _) _]. rewrite (at_det _ _ _ _ Hc0 Hpc) in *.
    unfold update_child_pos in Hfind. apply find_some in Hfind as [Hin Hcond].
    apply (in_children cf Hcf (w_st w) p pc ch (wf_forest _ _ W) Hpc) in Hin.
    rewrite (Hcc : get_ctx (w_st w) ch = Some cc) in Hcond. apply andb_true_iff in Hcond as [Hact _].
    apply ctx_state_eqb_eq in Hact.
    assert (Hne : p <> ch).
    { intros <-. destruct (fo_acyclic _ _ (wf_forest _ _ W) p) as (l & Hl).
      - exists pc; split; [exact Hpc|unfold live; congruence].
      - pose proof (child_path cf Hcf _ _ _ _ (wf_forest _ _ W) Hl Hin) as Hl2.
        pose proof (path_det _ _ _ Hl _ Hl2) as E. apply (f_equal (@length nat)) in E. cbn in E. lia. }
    assert (S1 : changes (w_st w) (put_ctx (w_st w) p pc')) by (eapply rolled_changes; eauto).
    destruct H as [(-> & _)|(cc'' & Hr2 & -> & _)]; [exact S1|].
    eapply rt_trans; [exact S1|]. eapply extend_rolled_changes; eauto.
    - apply at_put_iff; right; auto.
    - apply Wc.
  Qed.

  Lemma init_changes flags loc w r w' :
    u32 loc -> init_allowed (w_st w) (CmdInitCtx flags) loc ->
    exec_init cf (e_C e) (e_P e) (e_crypto e) flags loc w = (r, w') ->
    changes (w_st w) (w_st w').
  Proof.
    intros Wl A H. specialize (A flags eq_refl). apply exec_init_inv in H as [[[H _] _]|(s' & bs & (idx & h & Hi & _ & H) & -> & _)]; [apply none; exact H|].
    destruct H as [(_ & _ & Hn & -> & ->)|(Hd1 & Hd2 & Hs & Hg & ->)]; apply one.
    - apply ch_init_normal; auto. destruct A as [[_ A]|A]; [congruence|exact A].
    - apply ch_init_simulation; auto. destruct A as [[A _]|A]; [|exact A].
      unfold if_default in Hd2. rewrite contains_bit in Hd2. congruence.
  Qed.

  Lemma exec_command_changes cmd loc w r w' :
    wf cf (w_st w) -> command_wf cf cmd -> u32 loc -> init_allowed (w_st w) cmd loc ->
    exec_command cf (e_C e) (e_P e) (e_crypto e) (e_platform e) (e_cert e) cmd loc w = (r, w') ->
    changes (w_st w) (w_st w').
  Proof.
    intros W Wc Wl A H. revert W.
    destruct cmd; cbn [exec_command] in H; intros W.
    - apply exec_get_profile_inv in H as [[[H _] _]|(bs & H & _)]; apply none; exact H.
    - eapply init_changes; eauto.
    - eapply derive_changes; eauto.
    - apply exec_certify_inv in H as [[H _]|(s' & w1 & cr & nh & (i & ctx & _ & _ & H) & [-> _])]; [apply none; exact H|].
      eapply handle_rolled_changes; eauto.
    - apply exec_sign_inv in H as [[[H _] _]|(s' & bs & H & [-> _])]; [apply none; exact H|].
      destruct H as (h & lb & da & i & ctx & sg & sb & nh & w1 & _ & _ & _ & _ & _ & _ & H & _).
      eapply handle_rolled_changes; eauto.
    - apply exec_rotate_inv in H as [[[H _] _]|(s' & bs & H & [-> _])]; [apply none; exact H|].
      destruct H as (i & ctx & nh & _ & [(c0 & Hc0 & Ha & Hl & _) _] & Hc & -> & _ & H).
      rewrite (at_det _ _ _ _ Hc0 Hc) in *. apply one.
      destruct H as [(_ & -> & H1 & H2)|(_ & Hg)].
      + apply ch_default; auto; unfold no_default; rewrite Hl; auto.
      + apply ch_fresh; auto.
    - apply exec_destroy_inv in H as [[[H _] _]|(s' & H & [-> _])]; [apply none; exact H|].
      eapply destroy_changes; eauto.
    - apply exec_get_chain_inv in H as [[[H _] _]|(bs & H & _)]; apply none; exact H.
    - eapply update_changes; eauto.
  Qed.

  Theorem executes_changes cmd loc s r s' :
    wf cf s -> command_wf cf cmd -> u32 loc -> init_allowed s cmd loc ->
    executes cf e cmd loc s r s' -> changes s s'.
  Proof.
    intros W Wc Wl A (c & p & out & c' & p' & out' & H).
    exact (exec_command_changes cmd loc (mkWorld s c p out) r (mkWorld s' c' p' out') W Wc Wl A H).
  Qed.

  (** Creating an instance. *)
  Lemma dpe_new_changes w r w' :
    (forall loc, init_allowed (w_st w) (CmdInitCtx (2 ^ 30)) loc) ->
    dpe_new cf (e_C e) (e_P e) (e_crypto e) (e_platform e) w = (r, w') ->
    changes (w_st w) (w_st w').
  Proof.
    unfold dpe_new. intros A H. mstep H. mstep H; [|mstep H; apply none; reflexivity].
    mstep H; [|pose proof (keeps_platform _ _ _ _ E) as [K _]; apply none; exact K
              |pose proof (keeps_platform _ _ _ _ E) as [K _]; apply none; exact K].
    pose proof (keeps_platform _ _ _ _ E) as [K _].
    assert (I : forall r1 w1', with_out (e_C e) (e_P e) (repeat 0%N 28)
                  (exec_init cf (e_C e) (e_P e) (e_crypto e) (bit 30) (a mod 2 ^ 32)) w1 = (r1, w1') ->
                changes (w_st w) (w_st w1')).
    { intros r1 w1' X. unfold with_out in X.
      match type of X with context [exec_init ?f ?g ?h ?i ?j ?k ?l] =>
        destruct (exec_init f g h i j k l) as [[x|x|x] wx] eqn:EX end;
      inversion X; subst; clear X; apply init_changes in EX; cbn [w_st] in *;
      try (rewrite <- K; exact EX); try (rewrite K; exact (A _)); unfold u32; apply N.mod_lt; discriminate. }
    mstep H.
    - mstep H. eapply I; eauto.
    - eapply I; eauto.
    - eapply I; eauto.
  Qed.
End Commands.

(** ** Instance creation on a new state *)
Section Create.
  Variable cf : config.
  Variable e : env.
  Hypothesis Hcf : config_ok cf.
  Notation co := (e_crypto e).
  Notation po := (e_platform e).

  Definition auto_state (sup fl : N) (c : context) : state :=
    put_ctx (set_init true (state_new cf sup fl)) 0 c.
  Definition auto_context (loc ty : N) (cum cur : bytes) : context :=
    mkCtx default_handle (mkTci ty cum cur loc 0) 0 loc ROOT Normal Active
          false false true true true.

  Lemma new_slot sup fl i c :
    at_slot (state_new cf sup fl) i c <-> i < max_handles cf /\ c = ctx_new cf.
  Proof. unfold at_slot, state_new; cbn. rewrite nth_error_repeat_iff. tauto. Qed.

  Lemma new_first_inactive sup fl i :
    first_slot (inactive_at (state_new cf sup fl)) i -> i = 0.
  Proof.
    intros [(c & Hc & _) Hlow]. destruct i as [|i]; [reflexivity|]. exfalso.
    apply (Hlow 0); [lia|]. exists (ctx_new cf). split; [|reflexivity].
    apply new_slot. apply new_slot in Hc. split; [lia|reflexivity].
  Qed.

  Lemma exec_init_platform fl loc w0 r w1 :
    exec_init cf (e_C e) (e_P e) co fl loc w0 = (r, w1) -> w_p w1 = w_p w0.
  Proof.
    unfold exec_init. intro EX.
      assert (KP : forall A (m : M (e_C e) (e_P e) A), (forall u x u', m u = (x, u') -> w_p u' = w_p u) ->
        forall B (k : A -> M (e_C e) (e_P e) B), (forall a u x u', k a u = (x, u') -> w_p u' = w_p u) ->
        forall u x u', bind m k u = (x, u') -> w_p u' = w_p u).
      { intros A m Hm B k Hk u x u' X. unfold bind in X. destruct (m u) as [[v|v|v] u1] eqn:Em.
        - apply Hk in X. apply Hm in Em. congruence.
        - apply Hm in Em. inversion X; subst; exact Em.
        - apply Hm in Em. inversion X; subst; exact Em. }
      assert (KR : forall A (x : result A) (u : world (e_C e) (e_P e)) y u', lift x u = (y, u') -> w_p u' = w_p u)
        by (intros A x u y u' X; inversion X; reflexivity).
      assert (KG : forall (u : world (e_C e) (e_P e)) y u', get_st u = (y, u') -> w_p u' = w_p u)
        by (intros u y u' X; inversion X; reflexivity).
      assert (KS : forall s (u : world (e_C e) (e_P e)) y u', put_st s u = (y, u') -> w_p u' = w_p u)
        by (intros s u y u' X; inversion X; reflexivity).
      assert (KC : forall A (f : e_C e -> (A + crypto_error) * e_C e) (u : world (e_C e) (e_P e)) y u',
                 crypto f u = (y, u') -> w_p u' = w_p u).
      { intros A f u y u' X. unfold crypto in X. destruct (f (w_c u)) as [[v|v] cc]; inversion X; reflexivity. }
      assert (KH : forall u y u', generate_new_handle (e_C e) (e_P e) co u = (y, u') -> w_p u' = w_p u).
      { unfold generate_new_handle. induction max_new_handle_attempts as [|n IH]; cbn [gen_handle_loop]; intros u y u' X.
        - inversion X; reflexivity.
        - revert X. apply KP; [apply KC|]. intros a0 u0 x0 u0' X. revert X. apply KP; [apply KG|].
          intros a1 u1 x1 u1' X. destruct (_ && _)%bool; [inversion X; reflexivity|eauto]. }
      revert EX. apply KP; [apply KG|]. intros s u x u' X.
      destruct (_ || _)%bool in X; [inversion X; reflexivity|].
      destruct (negb _) in X; [inversion X; reflexivity|].
      revert X. apply KP; [apply KR|]. clear u x u'. intros idx u x u' X.
      revert X. apply KP.
      { clear u x u'. intros u x u' X. destruct (if_default fl).
        - revert X. apply KP; [apply KS|]. intros ? ? ? ? X; inversion X; reflexivity.
        - revert X. apply KP; [apply KH|]. intros ? ? ? ? X; inversion X; reflexivity. }
      clear u x u'. intros [ty h] u x u' X. revert X. apply KP.
      { clear. intros u x u' X. apply st_get_inv in X as [-> _]. reflexivity. }
      clear u x u'. intros old u x u' X. revert X. apply KP.
      { clear. intros u x u' X. apply st_set_inv in X as [(_ & _ & ->)|(_ & _ & ->)]; reflexivity. }
      clear. intros [] u x u' X. unfold respond in X. unfold bind in X.
      destruct (write_out 0 _ u) as [[v|v|v] u1] eqn:Ew; apply write_out_inv in Ew as (_ & _ & Ew & _);
        inversion X; subst; exact Ew.
  Qed.

  Lemma dpe_new_fresh sup fl w r w' :
    w_st w = state_new cf sup fl ->
    dpe_new cf (e_C e) (e_P e) co po w = (r, w') ->
    w_out w' = w_out w /\
    ((w_st w' = state_new cf sup fl /\ (r = Ok tt <-> N.testbit sup AUTO_INIT = false)) \/
     (N.testbit sup AUTO_INIT = true /\ r = Ok tt /\
      exists a p', po_auto_init_locality po (w_p w) = (inl a, p') /\ w_p w' = p' /\
        w_st w' = auto_state sup fl
                    (auto_context (a mod 2 ^ 32)%N 0 (repeat 0%N (tci_size cf)) (repeat 0%N (tci_size cf))))).
  Proof.
    intros Hs H. unfold dpe_new in H. mstep H. rewrite Hs in H. cbn [state_new st_support] in H.
    unfold preprocess_support, sup_auto_init in H. rewrite contains_bit in H. change (29%N) with AUTO_INIT in H.
    destruct (N.testbit sup AUTO_INIT) eqn:B.
    2:{ mstep H. split; [reflexivity|]. left. split; [exact Hs|]. tauto. }
    unfold bind in H at 1. unfold platform in H.
    destruct (po_auto_init_locality po (w_p w)) as [[a|er] p'] eqn:PL.
    2:{ inversion H; subst. cbn. split; [reflexivity|]. left. split; [exact Hs|]. split; discriminate. }
    unfold bind, with_out in H.
    match type of H with context [exec_init ?f ?g ?h ?i ?j ?k ?l] =>
      destruct (exec_init f g h i j k l) as [r1 wx] eqn:EX end.
    assert (Hp : w_p wx = p').
    { apply exec_init_platform in EX. exact EX. }
    apply exec_init_inv in EX. cbn [w_st w_p w_out w_c] in EX. rewrite Hs in EX.
    destruct EX as [[[K1 K2] K3]|(s' & bs & (idx & h & Hidx & Hbs & Hcase) & Hfin)].
    - destruct r1 as [x|x|x]; [exfalso; eapply K3; eauto| |]; inversion H; subst; cbn;
        (split; [reflexivity|]; left; split; [exact K1|]; split; discriminate).
    - destruct Hcase as [(_ & _ & _ & Hh & Hs')|(F1 & F2 & _)]; [|vm_compute in F1; discriminate].
      apply new_first_inactive in Hidx. subst idx h.
      destruct Hfin as [Hst [(_ & Hr & _)|(Hlen & _)]].
      + subst r1. cbn in H. inversion H; subst r w'. cbn [w_out w_st w_p]. split; [reflexivity|]. right.
        split; [reflexivity|]. split; [reflexivity|]. exists a, p'. split; [reflexivity|]. split; [exact Hp|].
        rewrite Hst, Hs'. reflexivity.
      + exfalso. rewrite Hbs in Hlen. cbn [w_out] in Hlen. rewrite repeat_length in Hlen.
        revert Hlen. unfold new_handle_resp_bytes. clear.
        unfold default_handle. rewrite app_length. cbn. lia.
  Qed.
End Create.

Section CreateMeasured.
  Variable cf : config.
  Variable e : env.
  Hypothesis Hcf : config_ok cf.
  Notation co := (e_crypto e).
  Notation po := (e_platform e).

  (** The possible outcomes of [new_auto_init] on a new state: nothing happened,
      only the plain initialisation happened (the measurement failed), or both. *)
  Lemma dpe_new_auto_init_fresh sup fl ty m w r w' :
    w_st w = state_new cf sup fl ->
    dpe_new_auto_init cf (e_C e) (e_P e) co po ty m w = (r, w') ->
    (w_st w' = state_new cf sup fl /\ r <> Ok tt) \/
    exists a p', N.testbit sup AUTO_INIT = true /\
      po_auto_init_locality po (w_p w) = (inl a, p') /\
      let loc := (a mod 2 ^ 32)%N in let z := repeat 0%N (tci_size cf) in
      (r <> Ok tt /\ w_st w' = auto_state cf sup fl (auto_context loc 0 z z)) \/
      (r = Ok tt /\ exists d, hashed (e_C e) (e_P e) co [z; m] d /\ length d = tci_size cf /\
                 w_st w' = auto_state cf sup fl (auto_context loc ty d m)).
  Proof.
    intros Hs H. unfold dpe_new_auto_init in H. mstep H. replace (sup_auto_init (st_support (w_st w))) with (N.testbit sup AUTO_INIT) in H
      by (rewrite Hs; unfold sup_auto_init; rewrite contains_bit; reflexivity).
    destruct (N.testbit sup AUTO_INIT) eqn:B; cbn [negb] in H.
    2:{ apply fail_inv in H as [-> ->]. left. split; [exact Hs|discriminate]. }
    unfold bind at 1 in H.
    destruct (dpe_new cf (e_C e) (e_P e) co po w) as [r1 w1] eqn:EN.
    apply (dpe_new_fresh cf e sup fl) in EN as [_ [[K1 K2]|(_ & Hr & a & p' & PL & Hp & Hst)]]; [| |exact Hs].
    { destruct r1 as [[]|x|x]; [destruct K2 as [K2 _]; specialize (K2 eq_refl); congruence| |];
        inversion H; subst; left; (split; [exact K1|discriminate]). }
    subst r1. right. exists a, p'. split; [reflexivity|]. split; [exact PL|]. cbv zeta.
    set (loc := (a mod 2 ^ 32)%N) in *. set (z := repeat 0%N (tci_size cf)) in *.
    set (c0 := auto_context loc 0 z z) in *.
    assert (Hlen : 0 < max_handles cf) by (destruct Hcf; lia).
    assert (Honly : forall i c, at_slot (w_st w1) i c -> c_state c = Active -> i = 0 /\ c = c0).
    { intros i c Hi Ha. rewrite Hst in Hi. unfold auto_state in Hi.
      apply at_put_iff in Hi as [(<- & _ & ->)|[Hne Hi]]; [auto|].
      exfalso. cbn in Hi. apply (new_slot cf sup fl) in Hi as [_ ->]. discriminate. }
    mstep H.
    2:{ apply keeps_platform in E as [E _]. left. split; [congruence|]. congruence. }
    2:{ apply keeps_platform in E as [E _]. left. split; [congruence|]. congruence. }
    apply keeps_platform in E as [E _]. mstep H. rewrite E in H. mstep H.
    2:{ left. split; [discriminate|congruence]. }
    2:{ left. split; [discriminate|congruence]. }
    match goal with X : get_active_context_pos _ _ _ = Ok _ |- _ => rename X into L end.
    apply lookup_ok in L as [(cx & Hcx & Hact & _) _].
    destruct (Honly _ _ Hcx Hact) as [-> ->].
    mstep H.
    2:{ left. split; [discriminate|]. congruence. }
    rewrite E in G. assert (c = c0) by (apply get_ctx_at in Hcx; apply get_ctx_at in G; congruence). subst c.
    mstep H.
    2:{ apply add_tci_keeps in E0 as [E0 _]. left. split; [congruence|]. congruence. }
    2:{ apply add_tci_keeps in E0 as [E0 _]. left. split; [congruence|]. congruence. }
    assert (KE := E0). apply add_tci_keeps in KE as [KE _].
    apply add_tci_ok in E0 as (_ & _ & d & Hd & Hld & ->).
    apply st_assign_inv in H as [(Hl & -> & ->)|(Hl & -> & ->)]; cbn [w_st].
    2:{ exfalso. apply at_lt in Hcx. rewrite KE, E in Hl. lia. }
    right. split; [reflexivity|]. exists d. split; [exact Hd|].
    cbn in Hld. unfold z in Hld. rewrite repeat_length in Hld. split; [exact Hld|].
    rewrite KE, E, Hst. unfold auto_state. rewrite put_put. reflexivity.
  Qed.
End CreateMeasured.
