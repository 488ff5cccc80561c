(** SuiteDeriveState.v -- the contexts in use, as a list, through derivations and
    destructions: proofs. *)
From Coq Require Import Permutation.
From Verif Require Import Base Errors Types StateOps Env Wire Instance Commands
  Lib Spec Exec Effects Forest History Steps Reach CommandSpecs Reasons SuiteProofs SuiteCases SuiteDeriveLive.
Local Open Scope N_scope.

(** The contexts in use are these. *)
Record holds (s : state) (L : list (nat * context)) : Prop := {
  ho_nodup : NoDup (map fst L);
  ho_in : forall i x, In (i, x) L -> at_slot s i x /\ live x;
  ho_all : forall i x, at_slot s i x -> live x -> In (i, x) L
}.

Lemma holds_perm s L L' : Permutation L L' -> holds s L -> holds s L'.
Proof.
  intros P [A B C]. constructor.
  - eapply Permutation_NoDup; [apply Permutation_map; exact P|exact A].
  - intros i x H. apply B. eapply Permutation_in; [apply Permutation_sym; exact P|exact H].
  - intros i x H1 H2. eapply Permutation_in; [exact P|auto].
Qed.
Lemma holds_swap s a b L : holds s (a :: b :: L) -> holds s (b :: a :: L).
Proof. apply holds_perm. apply perm_swap. Qed.
Lemma holds_last s a b d : holds s [a; b; d] -> holds s [d; a; b].
Proof. apply holds_perm. transitivity [a; d; b]; [apply perm_skip|]; apply perm_swap. Qed.
Lemma holds_head s p x L : holds s ((p, x) :: L) -> at_slot s p x /\ live x.
Proof. intros H. apply (ho_in _ _ H). left; reflexivity. Qed.
Lemma holds_other s p x L i y : holds s ((p, x) :: L) -> In (i, y) L -> i <> p.
Proof.
  intros H I ->. pose proof (ho_nodup _ _ H) as N. cbn [map fst] in N. inversion N as [|? ? X _]; subst. apply X.
  apply in_map_iff. exists (p, y). auto.
Qed.
Lemma holds_put s p x y L : holds s ((p, x) :: L) -> live y -> holds (put_ctx s p y) ((p, y) :: L).
Proof.
  intros H Ly. pose proof (holds_head _ _ _ _ H) as [A _]. constructor.
  - exact (ho_nodup _ _ H).
  - intros i z [E|I].
    + injection E as <- <-. split; [eapply at_put_same; exact A|exact Ly].
    + pose proof (holds_other _ _ _ _ _ _ H I) as Nx. destruct (ho_in _ _ H i z (or_intror I)) as [B1 B2]. split; [apply at_put_other; [congruence|exact B1]|exact B2].
  - intros i z Hz Lz. apply at_put_iff in Hz as [(-> & _ & ->)|(Nx & Hz)]; [left; reflexivity|].
    destruct (ho_all _ _ H i z Hz Lz) as [E|I]; [injection E as -> ->; contradiction|right; exact I].
Qed.
Lemma holds_add s q old y L : holds s L -> at_slot s q old -> c_state old = Inactive -> live y -> holds (put_ctx s q y) ((q, y) :: L).
Proof.
  intros H O I Ly. assert (F : forall x, ~ In (q, x) L).
  { intros x Q. destruct (ho_in _ _ H _ _ Q) as [A B]. unfold at_slot in *. assert (x = old) by congruence. subst. exact (B I). }
  constructor.
  - cbn [map fst]. constructor; [|exact (ho_nodup _ _ H)]. intros Q. apply in_map_iff in Q as ((a & x) & E & Q). cbn in E. subst a. exact (F x Q).
  - intros i z [E|Q].
    + injection E as <- <-. split; [eapply at_put_same; exact O|exact Ly].
    + destruct (ho_in _ _ H i z Q) as [B1 B2]. split; [apply at_put_other; [|exact B1]|exact B2]. intros ->. exact (F z Q).
  - intros i z Hz Lz. apply at_put_iff in Hz as [(-> & _ & ->)|(Nx & Hz)]; [left; reflexivity|]. right. exact (ho_all _ _ H i z Hz Lz).
Qed.
Lemma holds_room cf s L : wf cf s -> holds s L -> (length L < max_handles cf)%nat -> ~ Reasons.full s.
Proof.
  intros W H Lt F. assert (I : incl (seq 0 (max_handles cf)) (map fst L)).
  { intros i Hi. apply in_seq in Hi. destruct (nth_error (st_contexts s) i) as [x|] eqn:E.
    - apply in_map_iff. exists (i, x). split; [reflexivity|]. exact (ho_all _ _ H i x E (F i x E)).
    - apply nth_error_None in E. rewrite (fo_size _ _ (wf_forest _ _ W)) in E. lia. }
  pose proof (NoDup_incl_length (seq_NoDup (max_handles cf) 0) I) as X. rewrite seq_length, map_length in X. lia.
Qed.

(** Contexts that are not what the caller at [l] calls [h]. *)
Definition unnamed (h : bytes) (l : N) (e : nat * context) : Prop :=
  ~ (c_state (snd e) = Active /\ c_locality (snd e) = l /\ c_handle (snd e) = h).
Lemma holds_sole s p x L h l : holds s ((p, x) :: L) -> c_state x = Active -> c_locality x = l -> c_handle x = h -> Forall (unnamed h l) L ->
  first_slot (names s h l) p.
Proof.
  intros H A1 A2 A3 U. split; [exists x; split; [apply (holds_head _ _ _ _ H)|auto]|]. intros j Hj (y & Y1 & Y2 & Y3 & Y4).
  assert (Ly : live y) by (unfold live; congruence). destruct (ho_all _ _ H j y Y1 Ly) as [E|I]; [injection E as -> ->; lia|].
  rewrite Forall_forall in U. apply (U _ I). cbn [snd]. auto.
Qed.
Lemma holds_unnamed s L h l : holds s L -> Forall (unnamed h l) L -> forall j, ~ names s h l j.
Proof.
  intros H U j (y & Y1 & Y2 & Y3 & Y4). assert (Ly : live y) by (unfold live; congruence). rewrite Forall_forall in U. apply (U _ (ho_all _ _ H j y Y1 Ly)). cbn [snd]. auto.
Qed.

(** The same contexts are in use: nothing was disturbed. *)
Lemma holds_undisturbed cf s s' L : wf cf s -> wf cf s' -> same_globals s s' -> holds s L -> holds s' L -> undisturbed s s'.
Proof.
  intros W W' G H H'. split; [exact G|]. split; [rewrite (fo_size _ _ (wf_forest _ _ W)), (fo_size _ _ (wf_forest _ _ W')); reflexivity|].
  intros i x Hx. assert (E : exists x', at_slot s' i x').
  { unfold at_slot. destruct (nth_error (st_contexts s') i) as [y|] eqn:E; [eauto|]. apply nth_error_None in E. apply at_lt in Hx.
    rewrite (fo_size _ _ (wf_forest _ _ W)) in Hx. rewrite (fo_size _ _ (wf_forest _ _ W')) in E. lia. }
  destruct E as (x' & Hx'). exists x'. split; [exact Hx'|]. split.
  - intros Lx. destruct (ho_in _ _ H' _ _ (ho_all _ _ H _ _ Hx Lx)) as [Q _]. unfold at_slot in *. congruence.
  - intros Lx Lx'. destruct (ho_in _ _ H _ _ (ho_all _ _ H' _ _ Hx' Lx')) as [Q Q2]. unfold at_slot in *. assert (x' = x) by congruence. subst. exact (Lx Q2).
Qed.

Section Gone.
  Variable cf : config.
  Hypothesis Hcf : config_ok cf.
  (** A leaf disappears alone below an active parent. *)
  Lemma destroy_leaf s q x p px L s' : wf cf s -> holds s ((q, x) :: (p, px) :: L) -> c_parent x = p -> c_state px = Active ->
    Forall (fun e => c_parent (snd e) <> q) ((q, x) :: (p, px) :: L) -> destroyed cf s q s' ->
    holds s' ((p, set_children (N.clearbit (c_children px) (N.of_nat q)) px) :: L).
  Proof.
    intros W H P A U (_ & Len & D). pose proof (holds_head _ _ _ _ H) as [Hq Lq]. assert (Hp : at_slot s p px /\ live px) by (apply (ho_in _ _ H); right; left; reflexivity).
    destruct Hp as [Hp Lp]. rewrite Forall_forall in U.
    assert (NC : forall i, ~ child_of s q i).
    { intros i (y & Y1 & Y2 & Y3). apply (U (i, y) (ho_all _ _ H _ _ Y1 Y2)). exact Y3. }
    assert (DA : forall j, doomed s q j -> j = q).
    { induction 1 as [|a j _ IH C|j y kk Y1 Y2 (z & Z1 & Z2 & Z3) _ IH]; [reflexivity|subst a; destruct (NC j C)|].
      exfalso. assert (kk = q) by (apply IH; exists z; auto). subst kk. unfold at_slot in *. assert (z = x) by congruence. subst z. congruence. }
    assert (FW : forall i y, i <> q -> at_slot s i y -> at_slot s' i (set_children (N.clearbit (c_children y) (N.of_nat q)) y)).
    { intros i y Ni Y. destruct (D i y Y) as (y' & Y' & _ & D2). destruct D2 as [SB D2]; [intros Q; apply Ni, DA, Q|].
      assert (EC : c_children y' = N.clearbit (c_children y) (N.of_nat q)).
      { apply N.bits_inj. intros b. rewrite N.clearbit_eqb. specialize (D2 (N.to_nat b)). unfold has_bit in D2. rewrite N2Nat.id in D2.
        destruct (N.eqb_spec (N.of_nat q) b) as [<-|Nb]; cbn [negb]; rewrite ?andb_false_r, ?andb_true_r.
        - rewrite Nat2N.id in D2. destruct (N.testbit (c_children y') (N.of_nat q)) eqn:E; [|reflexivity]. exfalso. destruct (proj1 D2 eq_refl) as [_ Q]. apply Q. constructor.
        - destruct (N.testbit (c_children y') b) eqn:E1; destruct (N.testbit (c_children y) b) eqn:E2; try reflexivity; exfalso.
          + destruct (proj1 D2 eq_refl). discriminate.
          + assert (false = true); [|discriminate]. apply D2. split; [reflexivity|]. intros Q. apply DA in Q. apply Nb. rewrite <- Q. apply N2Nat.id. }
      assert (y' = set_children (N.clearbit (c_children y) (N.of_nat q)) y); [|subst; exact Y'].
      unfold same_but_children, set_children in *. destruct y, y'; cbn in *. intuition congruence. }
    assert (SAME : forall i y, In (i, y) L -> at_slot s' i y).
    { intros i y I. assert (Ni : i <> q) by (eapply holds_other; [exact H|right; exact I]).
      destruct (ho_in _ _ H i y (or_intror (or_intror I))) as [Y Ly]. specialize (FW i y Ni Y).
      assert (E : set_children (N.clearbit (c_children y) (N.of_nat q)) y = y); [|rewrite E in FW; exact FW].
      assert (B : N.testbit (c_children y) (N.of_nat q) = false).
      { destruct (N.testbit (c_children y) (N.of_nat q)) eqn:E; [|reflexivity]. exfalso.
        destruct (fo_down _ _ (wf_forest _ _ W) i y q Y E) as [_ (z & Z1 & _ & Z3)]. unfold at_slot in *. assert (z = x) by congruence. subst z.
        apply holds_swap in H. apply (holds_other _ _ _ _ _ _ H (or_intror I)). congruence. }
      assert (E2 : N.clearbit (c_children y) (N.of_nat q) = c_children y).
      { apply N.bits_inj. intros b. rewrite N.clearbit_eqb. destruct (N.eqb_spec (N.of_nat q) b) as [<-|]; cbn [negb]; rewrite ?andb_true_r, ?andb_false_r; auto. }
      rewrite E2. destruct y; reflexivity. }
    assert (Npq : p <> q) by (eapply holds_other; [exact H|left; reflexivity]).
    constructor.
    - pose proof (ho_nodup _ _ H) as N. cbn [map fst] in *. inversion N; assumption.
    - intros i y [E|I].
      + injection E as <- <-. split; [exact (FW p px Npq Hp)|]. unfold live, set_children. cbn. congruence.
      + split; [exact (SAME i y I)|]. apply (ho_in _ _ H i y). right; right; exact I.
    - intros i y' Y' Ly'. assert (E : exists y, at_slot s i y).
      { unfold at_slot. destruct (nth_error (st_contexts s) i) as [y|] eqn:E; [eauto|]. apply nth_error_None in E. apply at_lt in Y'. lia. }
      destruct E as (y & Y). destruct (Nat.eq_dec i q) as [->|Ni].
      { exfalso. destruct (D q y Y) as (y2 & Y2 & B & _). destruct (B (doomed_target _ _)) as [[B1 _] _]. unfold at_slot in *. assert (y2 = y') by congruence. subst. exact (Ly' B1). }
      pose proof (FW i y Ni Y) as Q. unfold at_slot in *. assert (E : y' = set_children (N.clearbit (c_children y) (N.of_nat q)) y) by congruence. subst y'.
      assert (Ly : live y) by exact Ly'. destruct (ho_all _ _ H i y Y Ly) as [E|[E|I]]; [injection E as -> ->; contradiction|injection E as -> ->; left; reflexivity|].
      right. rewrite (SAME i y I) in Y'. injection Y' as E. rewrite <- E. exact I.
  Qed.

  (** Everything disappears. *)
  Lemma destroy_everything s q L s' : wf cf s -> holds s L -> (forall i x, In (i, x) L -> doomed s q i) -> destroyed cf s q s' -> holds s' [].
  Proof.
    intros W H A (_ & Len & D). constructor; [constructor|intros i x []|]. intros i y' Y' Ly'. exfalso.
    assert (E : exists y, at_slot s i y).
    { unfold at_slot. destruct (nth_error (st_contexts s) i) as [y|] eqn:E; [eauto|]. apply nth_error_None in E. apply at_lt in Y'. lia. }
    destruct E as (y & Y). destruct (D i y Y) as (y2 & Y2 & B & C). unfold at_slot in *. assert (y2 = y') by congruence. subst y2.
    assert (Ly : live y \/ ~ live y) by (unfold live; destruct (c_state y); [right|left|left]; congruence).
    destruct Ly as [Ly|Ly].
    - destruct (B (A i y (ho_all _ _ H _ _ Y Ly))) as [[B1 _] _]. exact (Ly' B1).
    - assert (ND : ~ doomed s q i \/ doomed s q i) by (destruct (Nat.eq_dec i q) as [->|]; [right; constructor|left; intros Q; inversion Q as [|? ? ? (z & Z1 & Z2 & _)|? z ? Z1 Z2]; subst; [contradiction|unfold at_slot in *; assert (z = y) by congruence; subst; exact (Ly Z2)|unfold at_slot in *; assert (z = y) by congruence; subst; apply Ly; unfold live; congruence]]).
      destruct ND as [ND|Dm].
      + destruct (C ND) as [(_ & _ & _ & _ & _ & Q & _) _]. apply Ly. unfold live in *. congruence.
      + destruct (B Dm) as [[B1 _] _]. exact (Ly' B1).
  Qed.
End Gone.
