(** SuiteFollow.v -- the course of a test of the verification suite: what it calls lies between
    its beginning and its end.  Rules to follow a test step by step: proofs. *)
From Verif Require Import Base Errors Types Env GoClient Suite SuiteDerive.
Local Open Scope N_scope.

Section Follow.
  Variable T : Type.
  Variable send : N -> bytes -> T -> option bytes * T.
  Variable c : go_client.
  Notation test := (test T).
  Notation bench := (bench T).
  Notation call := (Suite.call T send c).

  (** [b'] comes after [b]: by calls of the client and changes of the locality. *)
  Inductive later : bench -> bench -> Prop :=
  | later_same b : later b b
  | later_call b q r l b1 b2 : call q b = (r, l, b1) -> later b1 b2 -> later b b2
  | later_move b l b2 : later (set_locality T l b) b2 -> later b b2.
  Lemma later_trans a b d : later a b -> later b d -> later a d.
  Proof. induction 1; intros; [assumption|eapply later_call; eauto|eapply later_move; eauto]. Qed.

  Variable harm : bench -> bench -> Prop.
  Definition mishap (b b' : bench) : Prop := exists b1 b2, later b b1 /\ harm b1 b2 /\ later b2 b'.
  Lemma mishap_before a b d : later a b -> mishap b d -> mishap a d.
  Proof. intros L (x & y & A & B & D). exists x, y. split; [eapply later_trans; eassumption|auto]. Qed.
  Lemma mishap_after a b d : mishap a b -> later b d -> mishap a d.
  Proof. intros (x & y & A & B & D) L. exists x, y. split; [assumption|]. split; [assumption|eapply later_trans; eassumption]. Qed.

  Definition follows {A} (m : test A) : Prop := forall b, later b (snd (m b)).
  Definition vfollows {V A} (m : vtest T V A) : Prop := forall v b, later b (snd (m v b)).

  Lemma f_done {A} (a : A) : follows (done T a). Proof. intros b; apply later_same. Qed.
  Lemma f_failed n : follows (failed T n). Proof. intros b; apply later_same. Qed.
  Lemma f_stopped {A} n : follows (@stopped T A n). Proof. intros b; apply later_same. Qed.
  Lemma f_crashed {A} : follows (@crashed T A). Proof. intros b; apply later_same. Qed.
  Lemma f_quit {A} : follows (@quit T A). Proof. intros b; apply later_same. Qed.
  Lemma f_where : follows (where_now T). Proof. intros b; apply later_same. Qed.
  Lemma f_move l : follows (move T l). Proof. intros b. eapply later_move. apply later_same. Qed.
  Lemma f_check x n : follows (check T x n). Proof. unfold check. destruct x; [apply f_done|apply f_failed]. Qed.
  Lemma f_must x n : follows (must T x n). Proof. unfold must. destruct x; [apply f_done|apply f_stopped]. Qed.
  Lemma f_call q : follows (call q).
  Proof. intros b. destruct (call q b) as [[r l] b1] eqn:E. cbn [snd]. eapply later_call; [exact E|apply later_same]. Qed.
  Lemma f_then {A B} (m : test A) (f : A -> test B) : follows m -> (forall a, follows (f a)) -> follows (andthen T m f).
  Proof.
    intros Hm Hf b. unfold andthen. specialize (Hm b). destruct (m b) as [[[a|] l] b1]; cbn [snd] in *; [|exact Hm].
    specialize (Hf a b1). destruct (f a b1) as [[r l2] b2]. cbn [snd] in *. eapply later_trans; eassumption.
  Qed.
  Lemma f_finally {A} (m : test A) d : follows m -> follows d -> follows (finally T m d).
  Proof.
    intros Hm Hd b. unfold finally. specialize (Hm b). destruct (m b) as [[r l] b1]; cbn [snd] in *.
    specialize (Hd b1). destruct (d b1) as [[r2 l2] b2]. cbn [snd] in *. eapply later_trans; eassumption.
  Qed.
  Lemma f_local {V A} (v : V) (m : vtest T V A) : vfollows m -> follows (local T v m).
  Proof. intros H b. unfold local. specialize (H v b). destruct (m v b) as [[[r l] v1] b1]. exact H. Qed.
  Lemma v_lift {V A} (m : test A) : follows m -> vfollows (@vlift T V A m).
  Proof. intros H v b. unfold vlift. specialize (H b). destruct (m b) as [[r l] b1]. exact H. Qed.
  Lemma v_set {V} (v : V) : vfollows (vset T v). Proof. intros v0 b. apply later_same. Qed.
  Lemma v_then {V A B} (m : vtest T V A) (f : A -> vtest T V B) : vfollows m -> (forall a, vfollows (f a)) -> vfollows (vthen T m f).
  Proof.
    intros Hm Hf v b. unfold vthen. specialize (Hm v b). destruct (m v b) as [[[[a|] l] v1] b1]; cbn [snd] in *; [|exact Hm].
    specialize (Hf a v1 b1). destruct (f a v1 b1) as [[[r l2] v2] b2]. cbn [snd] in *. eapply later_trans; eassumption.
  Qed.
  Lemma v_finally {V A} (m : vtest T V A) d : vfollows m -> (forall v, follows (d v)) -> vfollows (vfinally T m d).
  Proof.
    intros Hm Hd v b. unfold vfinally. specialize (Hm v b). destruct (m v b) as [[[r l] v1] b1]; cbn [snd] in *.
    specialize (Hd v1 b1). destruct (d v1 b1) as [[r2 l2] b2]. cbn [snd] in *. eapply later_trans; eassumption.
  Qed.

  (** A test passes, or there was a mishap. *)
  Definition fine {A} (m : test A) (b : bench) (Q : A -> bench -> Prop) : Prop :=
    match m b with (r, l, b1) => (exists a, r = Some a /\ l = [] /\ Q a b1) \/ mishap b b1 end.
  Definition vfine {V A} (m : vtest T V A) (v : V) (b : bench) (Q : A -> V -> bench -> Prop) : Prop :=
    match m v b with (r, l, v1, b1) => (exists a, r = Some a /\ l = [] /\ Q a v1 b1) \/ mishap b b1 end.

  Lemma fine_is {A} (m : test A) b a b1 (Q : A -> bench -> Prop) : m b = (Some a, [], b1) -> Q a b1 -> fine m b Q.
  Proof. intros E H. unfold fine. rewrite E. left. eauto. Qed.
  Lemma fine_mishap {A} (m : test A) b r l b1 (Q : A -> bench -> Prop) : m b = (r, l, b1) -> mishap b b1 -> fine m b Q.
  Proof. intros E H. unfold fine. rewrite E. right. exact H. Qed.
  Lemma fine_then {A B} (m : test A) (f : A -> test B) b Q : follows m -> (forall a, follows (f a)) ->
    fine m b (fun a b1 => fine (f a) b1 Q) -> fine (andthen T m f) b Q.
  Proof.
    intros Fm Ff H. unfold fine in *. unfold andthen. specialize (Fm b). destruct (m b) as [[r l] b1] eqn:E. cbn [snd] in Fm.
    destruct H as [(a & -> & -> & H)|H].
    - destruct (f a b1) as [[r2 l2] b2]. destruct H as [(a2 & -> & -> & H)|H]; [left; eauto|right]. eapply mishap_before; eassumption.
    - destruct r as [a|]; [|right; exact H]. specialize (Ff a b1). destruct (f a b1) as [[r2 l2] b2]. right. eapply mishap_after; eassumption.
  Qed.
  Lemma fine_finally {A} (m : test A) d b Q : follows m -> follows d ->
    fine m b (fun a b1 => fine d b1 (fun _ b2 => Q a b2)) -> fine (finally T m d) b Q.
  Proof.
    intros Fm Fd H. unfold fine in *. unfold finally. specialize (Fm b). destruct (m b) as [[r l] b1]. cbn [snd] in Fm. specialize (Fd b1).
    destruct (d b1) as [[r2 l2] b2]. cbn [snd] in Fd. destruct H as [(a & -> & -> & [(a2 & -> & -> & H)|H])|H].
    - left. eauto.
    - right. eapply mishap_before; eassumption.
    - right. eapply mishap_after; eassumption.
  Qed.
  Lemma fine_local {V A} (v : V) (m : vtest T V A) b Q : vfine m v b (fun a _ b1 => Q a b1) -> fine (local T v m) b Q.
  Proof. unfold fine, vfine, local. destruct (m v b) as [[[r l] v1] b1]. auto. Qed.
  Lemma vfine_lift {V A} (m : test A) (v : V) b Q : fine m b (fun a b1 => Q a v b1) -> vfine (vlift T m) v b Q.
  Proof. unfold fine, vfine, vlift. destruct (m b) as [[r l] b1]. auto. Qed.
  Lemma vfine_set {V} (v v' : V) b (Q : unit -> V -> bench -> Prop) : Q tt v' b -> vfine (vset T v') v b Q.
  Proof. intros H. left. exists tt. auto. Qed.
  Lemma vfine_then {V A B} (m : vtest T V A) (f : A -> vtest T V B) v b Q : vfollows m -> (forall a, vfollows (f a)) ->
    vfine m v b (fun a v1 b1 => vfine (f a) v1 b1 Q) -> vfine (vthen T m f) v b Q.
  Proof.
    intros Fm Ff H. unfold vfine in *. unfold vthen. specialize (Fm v b). destruct (m v b) as [[[r l] v1] b1] eqn:E. cbn [snd] in Fm.
    destruct H as [(a & -> & -> & H)|H].
    - destruct (f a v1 b1) as [[[r2 l2] v2] b2]. destruct H as [(a2 & -> & -> & H)|H]; [left; eauto|right]. eapply mishap_before; eassumption.
    - destruct r as [a|]; [|right; exact H]. specialize (Ff a v1 b1). destruct (f a v1 b1) as [[[r2 l2] v2] b2]. right. eapply mishap_after; eassumption.
  Qed.
  Lemma vfine_finally {V A} (m : vtest T V A) d v b Q : vfollows m -> (forall v, follows (d v)) ->
    vfine m v b (fun a v1 b1 => fine (d v1) b1 (fun _ b2 => Q a v1 b2)) -> vfine (vfinally T m d) v b Q.
  Proof.
    intros Fm Fd H. unfold fine, vfine in *. unfold vfinally. specialize (Fm v b). destruct (m v b) as [[[r l] v1] b1]. cbn [snd] in Fm. specialize (Fd v1 b1).
    destruct (d v1 b1) as [[r2 l2] b2]. cbn [snd] in Fd. destruct H as [(a & -> & -> & [(a2 & -> & -> & H)|H])|H].
    - left. eauto.
    - right. eapply mishap_before; eassumption.
    - right. eapply mishap_after; eassumption.
  Qed.
  Lemma fine_weaken {A} (m : test A) b (Q Q' : A -> bench -> Prop) : (forall a b1, Q a b1 -> Q' a b1) -> fine m b Q -> fine m b Q'.
  Proof. unfold fine. destruct (m b) as [[r l] b1]. intros H [(a & ? & ? & ?)|X]; [left; eauto|right; exact X]. Qed.
  (** A call with a mishap. *)
  Lemma fine_harm {A} (m : test A) b b1 r l b2 (Q : A -> bench -> Prop) : harm b b1 -> m b = (r, l, b2) -> later b1 b2 -> fine m b Q.
  Proof. intros H E L. unfold fine. rewrite E. right. exists b, b1. split; [apply later_same|auto]. Qed.
End Follow.

(** Every test follows. *)
Ltac follow_now :=
  match goal with
  | |- follows _ _ _ (andthen _ _ _) => apply f_then; [|intros]
  | |- follows _ _ _ (finally _ _ _) => apply f_finally
  | |- follows _ _ _ (local _ _ _) => apply f_local
  | |- follows _ _ _ (Suite.call _ _ _ _) => apply f_call
  | |- follows _ _ _ (done _ _) => apply f_done
  | |- follows _ _ _ (failed _ _) => apply f_failed
  | |- follows _ _ _ (stopped _ _) => apply f_stopped
  | |- follows _ _ _ (crashed _) => apply f_crashed
  | |- follows _ _ _ (quit _) => apply f_quit
  | |- follows _ _ _ (where_now _) => apply f_where
  | |- follows _ _ _ (move _ _) => apply f_move
  | |- follows _ _ _ (check _ _ _) => apply f_check
  | |- follows _ _ _ (must _ _ _) => apply f_must
  | |- vfollows _ _ _ (vlift _ _) => apply v_lift
  | |- vfollows _ _ _ (vset _ _) => apply v_set
  | |- vfollows _ _ _ (vthen _ _ _) => apply v_then; [|intros]
  | |- vfollows _ _ _ (vfinally _ _ _) => apply v_finally; [|intros]
  | |- _ => progress unfold ignore, must_fail, must_fail_fatal, must_handle, transport_profile, must_derive, should_derive, should
  | |- follows _ _ _ (match ?x with _ => _ end) => destruct x
  | |- vfollows _ _ _ (match ?x with _ => _ end) => destruct x
  end.
Ltac follow := repeat (cbv zeta; follow_now).
