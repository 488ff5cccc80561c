(** Props_Valid.v -- the state validator: C19, C20. *)
From Verif Require Import Base Errors Types StateOps Env Wire Instance Commands Validation Lib Spec Exec
  Effects Forest History Contract Steps Reach Toy Validator.
Local Open Scope nat_scope.

(** ** C19: the validator accepts exactly the acceptable states *)

(** [s] is any bit pattern of the persisted state: nothing is assumed but the
    size of the array and of the bitmaps. *)
Theorem C19_accepts_exactly :
  forall cf s, config_ok cf -> representable cf s ->
    (validate_dpe cf s = Ok tt <-> acceptable cf s).
Proof. intros cf s Hcf. exact (validate_dpe_iff cf Hcf s). Qed.
Print Assumptions C19_accepts_exactly.

(** It always answers -- on cyclic links too -- and the error it reports is true. *)
Theorem C19_errors_are_real :
  forall cf s, config_ok cf -> representable cf s ->
    validate_dpe cf s = Ok tt \/
    exists e, validate_dpe cf s = Err (ValidationErr e) /\ defect cf s e.
Proof. intros cf s Hcf. exact (validate_dpe_reported cf Hcf s). Qed.
Print Assumptions C19_errors_are_real.

(** A simulation context with a child, and corruptions of it. *)
Definition two_contexts : state := toy_state [(init_simulation, 0%N); (derive (Hn 1) (2 ^ 29) 7, 0%N)].
Definition ctx (i : nat) (s : state) : context := nth i (st_contexts s) (ctx_new toy_cf).
Definition set_parent (p : nat) (c : context) : context :=
  mkCtx (c_handle c) (c_tci c) (c_children c) (c_locality c) p (c_type c)
        (c_state c) (c_info c) (c_dice c) (c_x509 c) (c_export c) (c_recursive c).
(** Each is the other's parent and child. *)
Definition cyclic : state :=
  put_ctx (put_ctx two_contexts 0 (set_parent 1 (ctx 0 two_contexts)))
          1 (set_children 1 (ctx 1 two_contexts)).

Lemma toy_representable s :
  length (st_contexts s) = 4 -> forallb (fun c => (c_children c <? 2 ^ 64)%N) (st_contexts s) = true ->
  representable toy_cf s.
Proof.
  intros L B. split; [exact L|]. intros i c Hc. rewrite forallb_forall in B. apply N.ltb_lt. apply B.
  eapply nth_error_In. exact Hc.
Qed.

Example C19_accepted_and_rejected :
  representable toy_cf two_contexts /\ validate_dpe toy_cf two_contexts = Ok tt /\
  representable toy_cf cyclic /\ validate_dpe toy_cf cyclic = Err (ValidationErr CyclesInTree) /\
  validate_dpe toy_cf (put_ctx two_contexts 1 (set_children 4 (ctx 1 two_contexts)))
    = Err (ValidationErr InactiveChild) /\
  validate_dpe toy_cf (put_ctx two_contexts 2 (set_parent 1 (ctx 2 two_contexts)))
    = Err (ValidationErr InactiveContextInvalidParent) /\
  validate_dpe toy_cf (put_ctx two_contexts 1 (set_parent ROOT (ctx 1 two_contexts)))
    = Err (ValidationErr ParentChildLinksCorrupted).
Proof.
  split; [apply toy_representable; vm_compute; reflexivity|]. split; [vm_compute; reflexivity|].
  split; [apply toy_representable; vm_compute; reflexivity|]. vm_compute. repeat split; reflexivity.
Qed.

(** What the validator does not look for: well-formedness is more than
    acceptability.  Both contexts may carry the same handle, and a child may have
    permissions its parent lacks. *)
Definition same_handles : state := put_ctx two_contexts 1 (set_handle (c_handle (ctx 0 two_contexts)) (ctx 1 two_contexts)).
Definition more_rights : state :=
  put_ctx two_contexts 0 (let c := ctx 0 two_contexts in
    mkCtx (c_handle c) (c_tci c) (c_children c) (c_locality c) (c_parent c) (c_type c)
          (c_state c) (c_info c) (c_dice c) (c_x509 c) false false).
Definition more_rights' : state :=
  put_ctx more_rights 1 (let c := ctx 1 two_contexts in
    mkCtx (c_handle c) (c_tci c) (c_children c) (c_locality c) (c_parent c) (c_type c)
          (c_state c) (c_info c) (c_dice c) (c_x509 c) true (c_recursive c)).
Theorem C19_complete_integrity_refuted :
  (exists s i j c d, representable toy_cf s /\ validate_dpe toy_cf s = Ok tt /\
     at_slot s i c /\ at_slot s j d /\ i <> j /\ c_state c = Active /\ c_state d = Active /\
     c_locality c = c_locality d /\ c_handle c = c_handle d) /\
  (exists s i j c p, representable toy_cf s /\ validate_dpe toy_cf s = Ok tt /\
     at_slot s i c /\ live c /\ c_parent c = j /\ at_slot s j p /\ c_export c = true /\ c_export p = false).
Proof.
  split.
  - exists same_handles, 0, 1. eexists; eexists.
    split; [apply toy_representable; vm_compute; reflexivity|].
    split; [vm_compute; reflexivity|]. split; [vm_compute; reflexivity|]. split; [vm_compute; reflexivity|].
    vm_compute. repeat split; congruence.
  - exists more_rights', 1, 0. eexists; eexists.
    split; [apply toy_representable; vm_compute; reflexivity|].
    split; [vm_compute; reflexivity|]. split; [vm_compute; reflexivity|]. split; [vm_compute; discriminate|].
    split; [vm_compute; reflexivity|]. split; [vm_compute; reflexivity|]. vm_compute. split; reflexivity.
Qed.
Print Assumptions C19_complete_integrity_refuted.

(** ** C20: the validator accepts what the command set produces *)

(** Contexts are only initialised in localities without active contexts. *)
Definition orderly (s : state) (cmd : command) (loc : N) : Prop :=
  forall l, init_when_empty l s cmd loc.

Lemma history_weaken cf (E : env -> Prop) (G G' : state -> command -> N -> Prop) l s :
  (forall x cmd loc, G x cmd loc -> G' x cmd loc) -> history cf E G l s -> history cf E G' l s.
Proof.
  intros HG. induction 1.
  - apply hi_new. assumption.
  - eapply hi_create; eauto.
  - eapply hi_measured with (sup := sup); eauto.
  - eapply hi_command; eauto.
Qed.

Theorem C20_accepts_reachable :
  forall cf E l s, config_ok cf -> history cf E orderly l s -> validate_dpe cf s = Ok tt.
Proof.
  intros cf E l s Hcf H. pose proof (history_wf cf Hcf E orderly l s H) as W.
  apply (validate_dpe_iff cf Hcf s (wf_representable cf Hcf s W)). apply acceptable_wf; [exact W|].
  intros loc. apply (default_alone cf Hcf loc E l s). eapply history_weaken; [|exact H].
  intros x cmd loc' HG. exact (HG loc).
Qed.
Print Assumptions C20_accepts_reachable.

(** Without the proviso only the two locality complaints are possible. *)
Theorem C20_only_localities :
  forall cf s, config_ok cf -> reachable cf s ->
    validate_dpe cf s = Ok tt \/
    validate_dpe cf s = Err (ValidationErr MixedContextLocality) \/
    validate_dpe cf s = Err (ValidationErr MultipleDefaultContexts).
Proof.
  intros cf s Hcf H. pose proof (reachable_wf cf Hcf s H) as W. pose proof (wf_forest _ _ W) as F.
  destruct (validate_dpe_reported cf Hcf s (wf_representable cf Hcf s W)) as [K|(e & K & D)]; [left; exact K|right].
  destruct e; cbn [defect] in D; try (left; exact K); try (right; exact K); exfalso.
  - destruct D as (i & j & c & d & H1 & H2 & N & L1 & L2 & R1 & R2 & T1 & T2).
    exact (N (wf_one_normal_root _ _ W i j c d H1 H2 L1 L2 R1 R2 T1 T2)).
  - destruct D as (i & L & N). destruct (fo_acyclic _ _ F i L) as (l & P). exact (N l P).
  - destruct D as (i & c & H1 & I & R). exact (R (fo_inactive _ _ F i c H1 I)).
  - destruct D as (i & c & H1 & I & R). destruct (so_free _ _ _ (wf_slot _ _ W i c H1) I) as (_ & _ & X & _). exact (R X).
  - exact D.
  - exact D.
  - destruct D as (i & c & H1 & I & R). destruct (so_free _ _ _ (wf_slot _ _ W i c H1) I) as (_ & X & _). exact (R X).
  - destruct D as (i & c & H1 & T & S). exact (S (so_simulation _ _ _ (wf_slot _ _ W i c H1) T)).
  - destruct D as (i & c & H1 & L & R & N). destruct (fo_up _ _ F i c H1 L R) as (p & Hp & _). exact (N p Hp).
  - destruct D as (i & c & H1 & T & S). exact (S (so_dice _ _ _ (wf_slot _ _ W i c H1) T)).
  - destruct D as (i & c & H1 & T & S). exact (S (so_info _ _ _ (wf_slot _ _ W i c H1) T)).
  - destruct D as (i & c & j & H1 & L & B & N). destruct (fo_down _ _ F i c j H1 B) as (_ & d & Hd & _). exact (N d Hd).
  - destruct D as (i & c & H1 & I & R). destruct (so_free _ _ _ (wf_slot _ _ W i c H1) I) as (_ & _ & _ & _ & _ & X & Y & Z & _).
    destruct R as [R|[R|R]]; congruence.
  - destruct D as (i & c & H1 & N). exact (N (so_tci_locality _ _ _ (wf_slot _ _ W i c H1))).
  - destruct D as (i & c & H1 & S & N). destruct (fo_retired _ _ F i c H1 S) as (j & B). exact (N j B).
  - destruct D as (i & c & p & H1 & L & Hp & N). exact (N (proj1 (wf_inherits _ _ W i c (c_parent c) p H1 L eq_refl Hp))).
  - exact D.
  - destruct D as [(i & c & p & H1 & L & R & Hp & Lp & N)|(i & c & j & d & H1 & L & B & Hd & Ld & N)].
    + destruct (fo_up _ _ F i c H1 L R) as (q & Hq & _ & B). rewrite (at_det _ _ _ _ Hp Hq) in N. exact (N B).
    + destruct (fo_down _ _ F i c j H1 B) as (_ & d' & Hd' & _ & P). rewrite (at_det _ _ _ _ Hd Hd') in N. exact (N P).
  - exact D.
  - destruct D as (i & c & H1 & T & R & S). exact (S (so_x509 _ _ _ (wf_slot _ _ W i c H1) T R)).
  - destruct D as (i & c & p & H1 & L & R & Hp & I). destruct (fo_up _ _ F i c H1 L R) as (q & Hq & Lq & _).
    rewrite (at_det _ _ _ _ Hp Hq) in I. exact (Lq I).
  - destruct D as (i & c & j & d & H1 & L & B & Hd & I). destruct (fo_down _ _ F i c j H1 B) as (_ & d' & Hd' & Ld & _).
    rewrite (at_det _ _ _ _ Hd Hd') in I. exact (Ld I).
  - destruct D as (i & c & H1 & S & T & I). rewrite (wf_initialized _ _ W i c H1) in I; [discriminate|unfold live; congruence|exact T].
  - exact (D (wf_marker _ _ W)).
  - exact (D (wf_version _ _ W)).
Qed.
Print Assumptions C20_only_localities.

(** Both do occur: the commands alone can make a state the validator rejects. *)
Theorem C20_all_histories_refuted :
  (exists s, reachable toy_cf s /\ validate_dpe toy_cf s = Err (ValidationErr MixedContextLocality)) /\
  (exists s, reachable toy_cf s /\ validate_dpe toy_cf s = Err (ValidationErr MultipleDefaultContexts)).
Proof.
  split.
  - exists (toy_state [(init_simulation, 0%N); (init_default, 0%N)]). split; [apply toy_reachable; toy_wf|vm_compute; reflexivity].
  - exists (toy_state [(init_simulation, 0%N); (CmdRotateCtx (Hn 1) (2 ^ 31), 0%N); (init_default, 0%N)]).
    split; [apply toy_reachable; toy_wf|vm_compute; reflexivity].
Qed.
Print Assumptions C20_all_histories_refuted.

(** Non-vacuity: an orderly history with a retired parent, two trees and a free slot. *)
Example C20_orderly_history :
  let l := [(init_default, 0%N); (derive_to H0 (2 ^ 29 + 2 ^ 28 + 2 ^ 27) 7 4, 0%N); (init_simulation, 9%N)] in
  (exists h, history toy_cf any_env orderly h (toy_state l)) /\
  map c_state (st_contexts (toy_state l)) = [Active; Active; Active; Inactive] /\
  map c_locality (st_contexts (toy_state l)) = [0%N; 4%N; 9%N; 0%N] /\
  map c_parent (st_contexts (toy_state l)) = [ROOT; 0; ROOT; ROOT].
Proof.
  split.
  - apply toy_history; [exact I|toy_wf|].
    intros l1 cl l2 E loc f Ef Hl. destruct l1 as [|a [|b [|b' [|? ?]]]]; inversion E; subst; cbn in Ef; try discriminate.
    all: right; intros i c Hc Ha; unfold at_slot in Hc;
      match type of Hc with nth_error ?x _ = _ => let y := eval vm_compute in x in change x with y in Hc end;
      do 4 (destruct i as [|i]; [injection Hc as <-; vm_compute; vm_compute in Ha; discriminate|]);
      destruct i; discriminate.
  - vm_compute. repeat split; reflexivity.
Qed.
