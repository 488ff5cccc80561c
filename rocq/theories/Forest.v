(** Forest.v -- parent chains, and preservation of forest integrity by the
    elementary state changes. *)
From Verif Require Import Base Errors Types StateOps Lib Spec Exec.
Local Open Scope nat_scope.

Lemma live_dec c : {live c} + {c_state c = Inactive}.
Proof. unfold live; destruct (c_state c); [right; reflexivity|left; discriminate|left; discriminate]. Qed.

Lemma at_det s i c c' : at_slot s i c -> at_slot s i c' -> c = c'.
Proof. unfold at_slot; congruence. Qed.

Lemma at_lt s i c : at_slot s i c -> i < length (st_contexts s).
Proof. apply nth_error_lt. Qed.

Lemma mem_has_bit ch i : mem ch i = true <-> has_bit ch i.
Proof. reflexivity. Qed.

(** ** Paths *)

Lemma path_head s i l : path s i l -> exists l', l = i :: l'.
Proof. destruct 1; eauto. Qed.

Lemma path_det s i l1 : path s i l1 -> forall l2, path s i l2 -> l1 = l2.
Proof.
  induction 1 as [i c Hc Hl Hp|i c l Hc Hl Hp Hpath IH]; intros l2 H2; inversion H2; subst.
  - reflexivity.
  - pose proof (at_det _ _ _ _ Hc H); subst; congruence.
  - pose proof (at_det _ _ _ _ Hc H); subst; congruence.
  - pose proof (at_det _ _ _ _ Hc H); subst. f_equal; apply IH; assumption.
Qed.

Lemma path_suffix s i l : path s i l -> forall a, In a l ->
  exists l1 l2, l = l1 ++ a :: l2 /\ path s a (a :: l2).
Proof.
  induction 1 as [i c Hc Hl Hp|i c l Hc Hl Hp Hpath IH]; intros a Ha.
  - destruct Ha as [<-|[]]. exists [], []; split; [reflexivity|]. econstructor; eauto.
  - destruct Ha as [<-|Ha].
    + exists [], l; split; [reflexivity|]. econstructor; eauto.
    + destruct (IH a Ha) as (l1 & l2 & -> & Hs). exists (i :: l1), l2; split; [reflexivity|exact Hs].
Qed.

Lemma path_NoDup s i l : path s i l -> NoDup l.
Proof.
  induction 1 as [i c Hc Hl Hp|i c l Hc Hl Hp Hpath IH].
  - constructor; [intros []|constructor].
  - constructor; [|exact IH]. intros Hin.
    destruct (path_suffix _ _ _ Hpath _ Hin) as (l1 & l2 & E & Hs).
    assert (F : path s i (i :: l)) by (econstructor; eauto).
    pose proof (path_det _ _ _ Hs _ F) as D. injection D as D'.
    apply (f_equal (@length nat)) in E. rewrite app_length in E. cbn in E.
    rewrite D' in E. lia.
Qed.

Lemma path_live s i l : path s i l -> forall a, In a l -> live_at s a.
Proof.
  induction 1 as [i c Hc Hl Hp|i c l Hc Hl Hp Hpath IH]; intros a [<-|Ha].
  - exists c; auto.
  - destruct Ha.
  - exists c; auto.
  - apply IH; exact Ha.
Qed.

Lemma path_bound s i l : path s i l -> length l <= length (st_contexts s).
Proof.
  intros H. rewrite <- (seq_length (length (st_contexts s)) 0).
  apply NoDup_incl_length; [eapply path_NoDup; eauto|].
  intros a Ha. destruct (path_live _ _ _ H _ Ha) as (c & Hc & _).
  apply in_seq. apply at_lt in Hc. lia.
Qed.

Lemma path_map s s' i l :
  path s i l ->
  (forall a c, In a l -> at_slot s a c -> live c ->
     exists c', at_slot s' a c' /\ live c' /\ c_parent c' = c_parent c) ->
  path s' i l.
Proof.
  induction 1 as [i c Hc Hl Hp|i c l Hc Hl Hp Hpath IH]; intros M.
  - destruct (M i c (or_introl eq_refl) Hc Hl) as (c' & Hc' & Hl' & Hp').
    econstructor; eauto; congruence.
  - destruct (M i c (or_introl eq_refl) Hc Hl) as (c' & Hc' & Hl' & Hp').
    econstructor; eauto; [congruence|]. rewrite Hp'. apply IH.
    intros a d Ha; apply M; right; exact Ha.
Qed.

Lemma path_parent s i c l :
  path s i l -> at_slot s i c -> c_parent c <> ROOT -> exists l', l = i :: l' /\ path s (c_parent c) l'.
Proof.
  intros H Hc Hp. inversion H; subst.
  - pose proof (at_det _ _ _ _ Hc H0); subst; congruence.
  - pose proof (at_det _ _ _ _ Hc H0); subst. eauto.
Qed.

(** Only the contexts matter. *)
Lemma forest_ext cf s s' : st_contexts s' = st_contexts s -> forest cf s -> forest cf s'.
Proof.
  intros E F.
  assert (A : forall i c, at_slot s' i c <-> at_slot s i c) by (intros; unfold at_slot; rewrite E; reflexivity).
  assert (CO : forall p i, child_of s p i -> child_of s' p i).
  { intros p i (c & Hc & Hl & Hp). exists c; rewrite A; auto. }
  destruct F as [F1 F2 F3 F4 F5 F6]. constructor.
  - congruence.
  - intros i c Hc Hl Hp. apply A in Hc. destruct (F2 i c Hc Hl Hp) as (p & Hp1 & Hp2 & Hp3).
    exists p; rewrite A; auto.
  - intros i c j Hc Hb. apply A in Hc. destruct (F3 i c j Hc Hb); auto.
  - intros i (c & Hc & Hl). apply A in Hc. destruct (F4 i) as (l & Hl'); [exists c; auto|].
    exists l. eapply path_map; [exact Hl'|]. intros a d Ha Hd Hld. exists d; rewrite A; auto.
  - intros i c Hc. apply A in Hc. eauto.
  - intros i c Hc. apply A in Hc. eauto.
Qed.

Lemma root_not_slot cf s i c : config_ok cf -> length (st_contexts s) = max_handles cf ->
  at_slot s i c -> i <> ROOT.
Proof.
  intros (H & _) L Hc. apply at_lt in Hc. unfold ROOT. lia.
Qed.

Section Cf.
  Variable cf : config.
  Hypothesis Hcf : config_ok cf.

  Lemma forest_child_bit s i c j :
    forest cf s -> at_slot s i c -> (mem (c_children c) j = true <-> child_of s i j).
  Proof.
    intros F Hc. split.
    - intros Hb. apply (fo_down _ _ F i c j Hc Hb).
    - intros (d & Hd & Hl & Hp).
      assert (HR : c_parent d <> ROOT) by (rewrite Hp; eapply root_not_slot; eauto; apply F).
      destruct (fo_up _ _ F j d Hd Hl HR) as (p & Hp1 & _ & Hb).
      rewrite Hp in Hp1. rewrite (at_det _ _ _ _ Hc Hp1). exact Hb.
  Qed.

  Lemma forest_child_lt s i c j :
    forest cf s -> at_slot s i c -> mem (c_children c) j = true -> j < max_handles cf.
  Proof.
    intros F Hc Hb. apply (fo_down _ _ F i c j Hc) in Hb as (_ & d & Hd & _).
    apply at_lt in Hd. rewrite (fo_size _ _ F) in Hd. exact Hd.
  Qed.

  Lemma in_children s i c j :
    forest cf s -> at_slot s i c ->
    (In j (children_iter cf (c_children c)) <-> child_of s i j).
  Proof.
    intros F Hc. rewrite in_children_iter by assumption.
    rewrite (forest_child_bit s i c j F Hc). split; [tauto|]. intros H; split; [|exact H].
    eapply forest_child_lt; eauto. apply forest_child_bit with (s := s) (i := i); auto.
  Qed.

  Lemma child_path s i j l :
    forest cf s -> path s i l -> child_of s i j -> path s j (j :: l).
  Proof.
    intros F Hp (d & Hd & Hl & E). econstructor; eauto; [|rewrite E; exact Hp].
    rewrite E. destruct (path_live _ _ _ Hp i) as (c & Hc & _).
    { destruct (path_head _ _ _ Hp) as (l' & ->); left; reflexivity. }
    eapply root_not_slot; eauto. apply F.
  Qed.

  (** *** Changing a slot without touching links or liveness *)
  Lemma forest_update s i c c' :
    forest cf s -> at_slot s i c -> live c -> live c' ->
    c_parent c' = c_parent c -> c_children c' = c_children c ->
    (c_state c' = Retired -> exists j, has_bit (c_children c) j) ->
    forest cf (put_ctx s i c').
  Proof.
    intros F Hc Hl Hl' Hp Hch Hret.
    assert (Hlt := at_lt _ _ _ Hc).
    (* every slot of the old state is found again with the same links *)
    assert (FW : forall j d, at_slot s j d -> exists d', at_slot (put_ctx s i c') j d' /\
              (live d -> live d') /\ c_parent d' = c_parent d /\ c_children d' = c_children d).
    { intros j d Hd. destruct (Nat.eq_dec i j) as [<-|Hne].
      - rewrite (at_det _ _ _ _ Hd Hc). exists c'. split; [apply at_put_iff; left; auto|]. auto.
      - exists d. split; [apply at_put_iff; right; auto|]. auto. }
    assert (BW : forall j d', at_slot (put_ctx s i c') j d' -> exists d, at_slot s j d /\
              (live d' -> live d) /\ c_parent d' = c_parent d /\ c_children d' = c_children d).
    { intros j d' Hd. apply at_put_iff in Hd as [(<- & _ & ->)|[Hne Hd]]; [exists c|exists d']; auto. }
    assert (CO : forall p j, child_of s p j -> child_of (put_ctx s i c') p j).
    { intros p j (d & Hd & Hld & Hpd). destruct (FW j d Hd) as (d' & Hd' & Hld' & Hpd' & _).
      exists d'; split; [exact Hd'|]. split; [auto|congruence]. }
    destruct F as [F1 F2 F3 F4 F5 F6]. constructor.
    - cbn. rewrite length_upd. exact F1.
    - intros j d' Hd' Hld' Hpd'. destruct (BW j d' Hd') as (d & Hd & Hld & Ep & Ec).
      destruct (F2 j d Hd (Hld Hld')) as (p & Hp1 & Hp2 & Hp3); [congruence|].
      destruct (FW _ p Hp1) as (p' & Hp1' & Hp2' & _ & Ec'). exists p'.
      rewrite Ep. split; [exact Hp1'|]. split; [auto|]. rewrite Ec'. exact Hp3.
    - intros j d' k Hd' Hb. destruct (BW j d' Hd') as (d & Hd & Hld & Ep & Ec).
      rewrite Ec in Hb. destruct (F3 j d k Hd Hb) as [G1 G2]. split; [|apply CO; exact G2].
      destruct (FW j d Hd) as (d2 & Hd2 & Hld2 & _). rewrite (at_det _ _ _ _ Hd' Hd2). auto.
    - intros j (d' & Hd' & Hld'). destruct (BW j d' Hd') as (d & Hd & Hld & Ep & Ec).
      destruct (F4 j) as (l & Hl0); [exists d; auto|]. exists l. eapply path_map; [exact Hl0|].
      intros a x _ Hx Hlx. destruct (FW a x Hx) as (x' & G1 & G2 & G3 & _). exists x'; auto.
    - intros j d' Hd' Hin. apply at_put_iff in Hd' as [(<- & _ & ->)|[Hne Hd]]; [contradiction|eauto].
    - intros j d' Hd' Hin. apply at_put_iff in Hd' as [(<- & _ & ->)|[Hne Hd]]; [rewrite Hch; auto|eauto].
  Qed.

  (** *** Using a free slot for a new root *)
  Lemma forest_new_root s i c old :
    forest cf s -> at_slot s i old -> c_state old = Inactive ->
    c_state c = Active -> c_parent c = ROOT -> c_children c = 0%N ->
    forest cf (put_ctx s i c).
  Proof.
    intros F Hold Hin Hac Hpa Hch.
    assert (Hlt := at_lt _ _ _ Hold).
    assert (Lc : live c) by (unfold live; congruence).
    assert (NL : forall d, at_slot s i d -> ~ live d).
    { intros d Hd; rewrite (at_det _ _ _ _ Hd Hold). unfold live; intros X; apply X; exact Hin. }
    assert (FW : forall j d, at_slot s j d -> live d -> at_slot (put_ctx s i c) j d).
    { intros j d Hd Hl. apply at_put_iff. right. split; [|exact Hd].
      intros <-. exact (NL d Hd Hl). }
    assert (CO : forall p j, child_of s p j -> child_of (put_ctx s i c) p j).
    { intros p j (d & Hd & Hld & Hpd). exists d; auto. }
    destruct F as [F1 F2 F3 F4 F5 F6]. constructor.
    - cbn. rewrite length_upd. exact F1.
    - intros j d Hd Hl Hp. apply at_put_iff in Hd as [(<- & _ & ->)|[Hne Hd]]; [congruence|].
      destruct (F2 j d Hd Hl Hp) as (p & Hp1 & Hp2 & Hp3). exists p; auto.
    - intros j d k Hd Hb. apply at_put_iff in Hd as [(<- & _ & ->)|[Hne Hd]].
      + rewrite Hch in Hb. unfold has_bit in Hb. rewrite N.bits_0 in Hb; discriminate.
      + destruct (F3 j d k Hd Hb); auto.
    - intros j (d & Hd & Hl). apply at_put_iff in Hd as [(<- & _ & ->)|[Hne Hd]].
      + exists [i]. econstructor; eauto. apply at_put_iff; auto.
      + destruct (F4 j) as (l & Hp); [exists d; auto|]. exists l. eapply path_map; [exact Hp|].
        intros a x _ Hx Hlx. exists x; auto.
    - intros j d Hd Hi. apply at_put_iff in Hd as [(<- & _ & ->)|[Hne Hd]]; [congruence|eauto].
    - intros j d Hd Hi. apply at_put_iff in Hd as [(<- & _ & ->)|[Hne Hd]]; [congruence|eauto].
  Qed.

  (** *** Using a free slot for a child of [p] *)
  Lemma forest_new_child s i p c pc pc' old :
    forest cf s -> at_slot s i old -> c_state old = Inactive ->
    at_slot s p pc -> live pc ->
    c_state c = Active -> c_parent c = p -> c_children c = 0%N ->
    live pc' -> c_parent pc' = c_parent pc ->
    c_children pc' = N.lor (c_children pc) (N.shiftl 1 (N.of_nat i)) ->
    forest cf (put_ctx (put_ctx s i c) p pc').
  Proof.
    intros F Hold Hin Hpc Lpc Hac Hpa Hch Lpc' Hpp Hpch.
    assert (Hlt := at_lt _ _ _ Hold). assert (Hltp := at_lt _ _ _ Hpc).
    assert (Lc : live c) by (unfold live; congruence).
    assert (NL : forall d, at_slot s i d -> ~ live d).
    { intros d Hd; rewrite (at_det _ _ _ _ Hd Hold). unfold live; intros X; apply X; exact Hin. }
    assert (Hne : i <> p) by (intros ->; exact (NL pc Hpc Lpc)).
    set (s' := put_ctx (put_ctx s i c) p pc').
    assert (Ai : at_slot s' i c).
    { apply at_put_iff; right; split; [congruence|]. apply at_put_iff; auto. }
    assert (Ap : at_slot s' p pc').
    { apply at_put_iff; left; repeat split. cbn; rewrite length_upd; exact Hltp. }
    assert (FW : forall j d, at_slot s j d -> live d ->
       exists d', at_slot s' j d' /\ live d' /\ c_parent d' = c_parent d /\
                  (forall k, has_bit (c_children d) k -> has_bit (c_children d') k)).
    { intros j d Hd Hl. destruct (Nat.eq_dec p j) as [<-|Hnp].
      - rewrite (at_det _ _ _ _ Hd Hpc). exists pc'. split; [exact Ap|]. split; [exact Lpc'|].
        split; [exact Hpp|]. intros k Hk. rewrite Hpch. unfold has_bit in *.
        rewrite N.lor_spec, Hk. reflexivity.
      - exists d. split; [|auto]. apply at_put_iff; right; split; [exact Hnp|].
        apply at_put_iff; right; split; [|exact Hd]. intros <-; exact (NL d Hd Hl). }
    assert (BW : forall j d', at_slot s' j d' ->
       (j = i /\ d' = c) \/ (j = p /\ d' = pc') \/ (j <> i /\ j <> p /\ at_slot s j d')).
    { intros j d' Hd. apply at_put_iff in Hd as [(<- & _ & ->)|[Hnp Hd]]; [auto|].
      apply at_put_iff in Hd as [(<- & _ & ->)|[Hni Hd]]; [auto|]. auto 6. }
    assert (CO : forall q j, child_of s q j -> child_of s' q j).
    { intros q j (d & Hd & Hld & Hpd). destruct (FW j d Hd Hld) as (d' & G1 & G2 & G3 & _).
      exists d'; split; [exact G1|]. split; [exact G2|congruence]. }
    assert (CI : child_of s' p i) by (exists c; auto).
    destruct F as [F1 F2 F3 F4 F5 F6].
    assert (PA : forall j l, path s j l -> path s' j l).
    { intros j l Hp. eapply path_map; [exact Hp|]. intros a x _ Hx Hlx.
      destruct (FW a x Hx Hlx) as (x' & G1 & G2 & G3 & _). eauto. }
    constructor.
    - unfold s'; cbn. rewrite !length_upd. exact F1.
    - intros j d Hd Hl Hp. apply BW in Hd as [[-> ->]|[[-> ->]|(H1 & H2 & Hd)]].
      + exists pc'. rewrite Hpa. split; [exact Ap|]. split; [exact Lpc'|]. rewrite Hpch. unfold has_bit.
        rewrite N.lor_spec, testbit_shl1, Nat.eqb_refl. apply orb_true_r.
      + destruct (F2 p pc Hpc Lpc) as (q & Q1 & Q2 & Q3); [congruence|].
        destruct (FW _ q Q1 Q2) as (q' & G1 & G2 & G3 & G4). exists q'. rewrite Hpp. auto.
      + destruct (F2 j d Hd Hl Hp) as (q & Q1 & Q2 & Q3).
        destruct (FW _ q Q1 Q2) as (q' & G1 & G2 & G3 & G4). exists q'. auto.
    - intros j d k Hd Hb. apply BW in Hd as [[-> ->]|[[-> ->]|(H1 & H2 & Hd)]].
      + rewrite Hch in Hb. unfold has_bit in Hb. rewrite N.bits_0 in Hb; discriminate.
      + split; [exact Lpc'|]. rewrite Hpch in Hb. unfold has_bit in Hb.
        rewrite N.lor_spec, testbit_shl1 in Hb. apply orb_true_iff in Hb as [Hb|Hb].
        * apply CO. apply (F3 p pc k Hpc Hb).
        * apply Nat.eqb_eq in Hb. subst k. exact CI.
      + destruct (F3 j d k Hd Hb) as [G1 G2]; split; [exact G1|apply CO; exact G2].
    - destruct (F4 p) as (lp & Hlp); [exists pc; auto|].
      intros j (d & Hd & Hl). apply BW in Hd as [[-> ->]|[[-> ->]|(H1 & H2 & Hd)]].
      + exists (i :: lp). econstructor; eauto.
        * rewrite Hpa. apply (root_not_slot cf s p pc Hcf F1 Hpc).
        * rewrite Hpa. apply PA; exact Hlp.
      + exists lp. apply PA; exact Hlp.
      + destruct (F4 j) as (l & Hp); [exists d; auto|]. exists l. apply PA; exact Hp.
    - intros j d Hd Hi. apply BW in Hd as [[-> ->]|[[-> ->]|(H1 & H2 & Hd)]]; [congruence|contradiction|eauto].
    - intros j d Hd Hi. apply BW in Hd as [[-> ->]|[[-> ->]|(H1 & H2 & Hd)]]; [congruence| |eauto].
      exists i. rewrite Hpch. unfold has_bit. rewrite N.lor_spec, testbit_shl1, Nat.eqb_refl. apply orb_true_r.
  Qed.
End Cf.

(** *** The initial state *)
Lemma forest_new cf sup fl : forest cf (state_new cf sup fl).
Proof.
  assert (A : forall i c, at_slot (state_new cf sup fl) i c -> c = ctx_new cf).
  { intros i c H. unfold at_slot, state_new in H; cbn in H. apply nth_error_repeat_iff in H. tauto. }
  constructor.
  - cbn. apply repeat_length.
  - intros i c Hc Hl. rewrite (A i c Hc) in Hl. exfalso; apply Hl; reflexivity.
  - intros i c j Hc Hb. rewrite (A i c Hc) in Hb. unfold has_bit in Hb; cbn in Hb. discriminate.
  - intros i (c & Hc & Hl). rewrite (A i c Hc) in Hl. exfalso; apply Hl; reflexivity.
  - intros i c Hc _. rewrite (A i c Hc); reflexivity.
  - intros i c Hc Hr. rewrite (A i c Hc) in Hr. discriminate.
Qed.
