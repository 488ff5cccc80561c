(** Props_Ledger.v -- the stored measurements are the history of the context: C14. *)
From Verif Require Import Base Errors Types StateOps Env Wire Instance Commands Lib Spec Exec
  Effects Forest History Contract Steps Reach CommandSpecs Ledger Toy.
Local Open Scope nat_scope.

(** ** C14: the cumulative measurement is the hash chain of all measurements *)

(** Every history has a ledger: for each slot the list of the measurements its
    context received since it was created.  ([receives] says who receives what;
    it mentions neither the hash nor the stored digests.) *)
Theorem C14_every_history_has_a_ledger :
  forall cf (E : env -> Prop) (G : state -> command -> N -> Prop) l s, config_ok cf ->
    history cf E G l s -> exists L, ledger cf E G l s L.
Proof. intros cf E G l s Hcf H. exact (ledger_ex cf Hcf E G l s H). Qed.
Print Assumptions C14_every_history_has_a_ledger.

(** Whatever the history, the cumulative digest of every context in use is the
    chain of its ledger -- zeroes, then one hash per measurement, in order -- and
    its current digest is the last entry (zeroes if there is none).  Slots not in
    use have an empty ledger, so a context that reuses a slot starts afresh. *)
Theorem C14_chain :
  forall cf (E : env -> Prop) (G : state -> command -> N -> Prop) l s L, config_ok cf ->
    ledger cf E G l s L ->
    forall i, (~ live_at s i -> L i = []) /\
      forall c, at_slot s i c -> live c ->
        tci_chain (tci_size cf) (some_hash E) (L i) (tci_cumulative (c_tci c)) /\
        tci_current (c_tci c) = last (L i) (repeat 0%N (tci_size cf)).
Proof. intros cf E G l s L Hcf H. exact (ledger_chain cf Hcf E G l s L H). Qed.
Print Assumptions C14_chain.

(** With a back end that hashes with one function [f], the cumulative digest is
    a left fold of [f] over the ledger. *)
Theorem C14_fold :
  forall cf (E : env -> Prop) (G : state -> command -> N -> Prop) (f : bytes -> bytes) l s L, config_ok cf ->
    (forall e x m d, E e -> hash_of (e_crypto e) [x; m] d -> d = f (x ++ m)) ->
    ledger cf E G l s L ->
    forall i c, at_slot s i c -> live c ->
      tci_cumulative (c_tci c) = fold_left (fun x m => f (x ++ m)) (L i) (repeat 0%N (tci_size cf)).
Proof.
  intros cf E G f l s L Hcf Hf H i c Hc Lc.
  destruct (proj2 (ledger_chain cf Hcf E G l s L H i) c Hc Lc) as [Ch _].
  eapply chain_fold; [|exact Ch]. intros x m y (e & He & Hh). eapply Hf; eauto.
Qed.
Print Assumptions C14_fold.

(** Nothing gets into the ledger but the data of commands that were carried out
    (and the initial measurement of [new_auto_init]). *)
Theorem C14_only_presented :
  forall cf (E : env -> Prop) (G : state -> command -> N -> Prop) l s L, config_ok cf ->
    ledger cf E G l s L ->
    forall i m, In m (L i) -> exists ev, In ev l /\ presented ev m.
Proof. intros cf E G l s L Hcf H. exact (ledger_presented cf Hcf E G l s L H). Qed.
Print Assumptions C14_only_presented.

(** A single step: a command that is not carried out, or that addresses another
    context, leaves the measurements of a context alone; one that is carried out
    hashes its data in exactly once. *)
Theorem C14_step :
  forall cf e cmd loc s r s', config_ok cf -> wf cf s -> executes cf e cmd loc s r s' ->
    forall i c', at_slot s' i c' -> live c' ->
      exists c, at_slot s i c /\
        (forall m, carried_out r -> receives cmd loc s i m ->
           hash_of (e_crypto e) [tci_cumulative (c_tci c); m] (tci_cumulative (c_tci c')) /\
           tci_current (c_tci c') = m) /\
        ((~ carried_out r \/ forall m, ~ receives cmd loc s i m) ->
           tci_cumulative (c_tci c') = tci_cumulative (c_tci c) /\
           tci_current (c_tci c') = tci_current (c_tci c)).
Proof. intros cf e cmd loc s r s' Hcf W H. exact (executes_tci cf Hcf e cmd loc s r s' W H). Qed.
Print Assumptions C14_step.

(** Non-vacuity: a simulation root, a child measured with 7s, then updated with
    200s; the ledger of the child holds both, and its digest is the fold. *)
Definition steps3 : list (command * N) :=
  [(init_simulation, 0%N); (derive (Hn 1) (2 ^ 29) 7, 0%N); (update (Hn 2) 7, 0%N)].

Lemma first_by (Q : nat -> Prop) i : Q i -> (forall j, j < i -> ~ Q j) -> first_slot Q i.
Proof. split; assumption. Qed.

Lemma toy_hash_of x m d : hash_of (toy_crypto counting) [x; m] d -> d = toy_hash (x ++ m).
Proof.
  intros (c & c0 & c1 & c2 & c3 & dg & H1 & H2 & H3 & H4 & ->). unfold toy_crypto in *.
  cbn [co_hasher co_hash_initialize] in H1, H2. injection H1 as <-. injection H2 as <-.
  inversion H3 as [|? ? ? y ? U H3']; subst. cbn [co_hash_update] in U. injection U as <-.
  inversion H3' as [|? ? ? z ? U H3'']; subst. cbn [co_hash_update] in U. injection U as <-.
  inversion H3''; subst. cbn [co_hash_finish tc_acc app] in H4. injection H4 as <- _. unfold toy_hash. unfold digest_bytes.
  apply to_buf_id; [apply length_le_bytes|apply all_bytes_le_bytes].
Qed.

Definition cmd2 := derive (Hn 1) (2 ^ 29) 7.
Definition cmd3 := update (Hn 2) 7.
Definition before1 : list (command * N) := [].
Definition before2 : list (command * N) := [(init_simulation, 0%N)].
Definition before3 : list (command * N) := [(init_simulation, 0%N); (cmd2, 0%N)].

Lemma toy_ledger l L cmds cmd L' :
  ledger toy_cf (eq toy_env) any_command l (toy_state cmds) L -> command_wf toy_cf cmd ->
  logs cmd 0%N (toy_state cmds) (toy_result counting cmds cmd 0) (toy_state (cmds ++ [(cmd, 0%N)])) L L' ->
  ledger toy_cf (eq toy_env) any_command (EvCommand cmd 0%N (toy_result counting cmds cmd 0) :: l)
    (toy_state (cmds ++ [(cmd, 0%N)])) L'.
Proof.
  intros H Wc HL. eapply (le_command _ _ _ _ _ toy_env); [exact H|reflexivity|exact Wc|reflexivity|exact Logic.I| |exact HL].
  apply toy_executes.
Qed.

Lemma receives2 : receives cmd2 0%N (toy_state before2) 1 (data 7).
Proof.
  split; [reflexivity|]. split; [reflexivity|]. apply first_by.
  - exists (ctx_new toy_cf). split; [vm_compute; reflexivity|reflexivity].
  - intros [|j] Hj; [|lia]. intros (c & Hc & Ic). vm_compute in Hc. injection Hc as <-. discriminate.
Qed.
Lemma receives3 : receives cmd3 0%N (toy_state before3) 1 (data 200).
Proof.
  assert (S : exists a b c, st_contexts (toy_state before3) = a :: b :: c /\
     (c_state a = Active /\ c_locality a = 0%N /\ c_handle a = Hn 2) /\
     (c_state b = Active /\ c_parent b = 0 /\ tci_type (c_tci b) = 7%N)).
  { vm_compute. do 3 eexists. split; [reflexivity|]. repeat split. }
  destruct S as (a & b & c & S & Ha & B1 & B2 & B3). split; [reflexivity|]. exists 0, b.
  assert (A0 : at_slot (toy_state before3) 0 a) by (unfold at_slot; rewrite S; reflexivity).
  assert (A1 : at_slot (toy_state before3) 1 b) by (unfold at_slot; rewrite S; reflexivity).
  split; [apply first_by; [exists a; tauto|intros j Hj; lia]|].
  split; [exists b; unfold live; rewrite B1; repeat split; auto; discriminate|]. auto.
Qed.

Example C14_two_measurements :
  exists l L c,
    ledger toy_cf (eq toy_env) any_command l (toy_state steps3) L /\
    L 1 = [data 7; data 200] /\ L 0 = [] /\ at_slot (toy_state steps3) 1 c /\ live c /\
    tci_cumulative (c_tci c) = toy_hash (toy_hash (repeat 0%N 32 ++ data 7) ++ data 200) /\
    tci_current (c_tci c) = data 200.
Proof.
  pose proof toy_cf_ok as Hcf.
  assert (B0 : ledger toy_cf (eq toy_env) any_command [] (toy_state before1) (fun _ => [])).
  { apply le_new; auto. reflexivity. }
  assert (Q : forall i m, ~ receives init_simulation 0%N (toy_state before1) i m) by (intros i m []).
  pose proof (toy_ledger _ _ _ init_simulation _ B0 ltac:(reflexivity) (logs_quiet _ _ _ _ _ _ (or_intror Q))) as B1.
  change (before1 ++ [(init_simulation, 0%N)]) with before2 in B1.
  assert (W2 : wf toy_cf (toy_state before2)) by (apply (reachable_wf toy_cf Hcf), toy_reachable; toy_wf).
  assert (C2 : toy_result counting before2 cmd2 0 = Ok 44%N) by (vm_compute; reflexivity).
  pose proof (toy_ledger _ _ _ cmd2 _ B1 ltac:(vm_compute; repeat split; repeat constructor)
     (logs_receive toy_cf Hcf _ _ _ _ _ _ _ _ W2 (or_introl (ex_intro _ _ C2)) receives2)) as B2.
  change (before2 ++ [(cmd2, 0%N)]) with before3 in B2.
  assert (W3 : wf toy_cf (toy_state before3)) by (apply (reachable_wf toy_cf Hcf), toy_reachable; toy_wf).
  assert (C3 : toy_result counting before3 cmd3 0 = Ok 44%N) by (vm_compute; reflexivity).
  pose proof (toy_ledger _ _ _ cmd3 _ B2 ltac:(vm_compute; repeat split; repeat constructor)
     (logs_receive toy_cf Hcf _ _ _ _ _ _ _ _ W3 (or_introl (ex_intro _ _ C3)) receives3)) as B3.
  change (before3 ++ [(cmd3, 0%N)]) with steps3 in B3.
  assert (L2 : live_at (toy_state before3) 1).
  { destruct receives3 as (_ & p & x & _ & (y & Hy & Ly & _) & _). exists y. auto. }
  assert (S3 : exists a b c, st_contexts (toy_state steps3) = a :: b :: c /\ c_state b = Active /\
     tci_cumulative (c_tci b) = toy_hash (toy_hash (repeat 0%N 32 ++ data 7) ++ data 200) /\
     tci_current (c_tci b) = data 200).
  { vm_compute. do 3 eexists. split; [reflexivity|]. repeat split. }
  destruct S3 as (a & c & r & S3 & Ac & S4).
  assert (Hc : at_slot (toy_state steps3) 1 c) by (unfold at_slot; rewrite S3; reflexivity).
  assert (Lc : live c) by (unfold live; rewrite Ac; discriminate).
  assert (L3 : live_at (toy_state steps3) 1) by (exists c; auto).
  do 2 eexists. exists c. split; [exact B3|]. split; [|split; [|split; [exact Hc|split; [exact Lc|exact S4]]]].
  - cbv beta. destruct (live_at_dec (toy_state steps3) 1); [|contradiction].
    destruct (live_at_dec (toy_state before3) 1); [|contradiction].
    cbn [Nat.eqb]. destruct (live_at_dec (toy_state before2) 1); reflexivity.
  - cbv beta. cbn [Nat.eqb]. destruct (live_at_dec (toy_state steps3) 0), (live_at_dec (toy_state before3) 0),
      (live_at_dec (toy_state before2) 0); reflexivity.
Qed.
