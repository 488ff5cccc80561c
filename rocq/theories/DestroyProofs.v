(** DestroyProofs.v -- descendants, retired ancestors and the exact effect of
    destroying a context. *)
From Verif Require Import Base Errors Types StateOps Commands Lib Spec Exec Forest.
Local Open Scope nat_scope.

(** Proper descendants. *)
Inductive desc (s : state) : nat -> nat -> Prop :=
| desc_one i j : child_of s i j -> desc s i j
| desc_more i k j : child_of s i k -> desc s k j -> desc s i j.

Lemma Ok_inj {A} (a b : A) : Ok a = Ok b -> a = b.
Proof. congruence. Qed.

Section Cf.
  Variable cf : config.
  Hypothesis Hcf : config_ok cf.

  (** ** Descendants *)
  Lemma fold_union (f : nat -> result N) ks : forall d0,
    (forall k, In k ks -> exists d, f k = Ok d) ->
    exists d,
      fold_left (fun acc idx => rbind acc (fun a => rbind (f idx) (fun b => Ok (add_children a b))))
                ks (Ok d0) = Ok d /\
      forall j, mem d j = true <->
                mem d0 j = true \/ exists k b, In k ks /\ f k = Ok b /\ mem b j = true.
  Proof.
    induction ks as [|k ks IH]; intros d0 Hf; cbn [fold_left].
    - exists d0. split; [reflexivity|]. intros j. split; [auto|]. intros [H|(k & b & [] & _)]; exact H.
    - destruct (Hf k (or_introl eq_refl)) as (b & Hb). cbn [rbind]. rewrite Hb. cbn [rbind].
      destruct (IH (add_children d0 b)) as (d & Hd & Hm).
      { intros k' Hk'; apply Hf; right; exact Hk'. }
      exists d. split; [exact Hd|]. intros j. rewrite Hm. unfold add_children. rewrite mem_lor, orb_true_iff.
      split.
      + intros [[H|H]|(k' & b' & H1 & H2 & H3)]; [left; exact H| |].
        * right; exists k, b; split; [left; reflexivity|auto].
        * right; exists k', b'; split; [right; exact H1|auto].
      + intros [H|(k' & b' & [<-|H1] & H2 & H3)]; [auto| |].
        * left; right. congruence.
        * right; eauto.
  Qed.

  Lemma fold_left_ext {A B} (f g : A -> B -> A) l : forall a,
    (forall x y, In y l -> f x y = g x y) -> fold_left f l a = fold_left g l a.
  Proof.
    induction l as [|y l IH]; intros a H; cbn; [reflexivity|].
    rewrite (H a y (or_introl eq_refl)). apply IH. intros; apply H; right; assumption.
  Qed.

  Lemma get_descendants_spec s : forest cf s -> forall n i c l,
    at_slot s i c -> live c -> path s i l -> max_handles cf < n + length l ->
    exists d, get_descendants cf n s c = Ok d /\ forall j, mem d j = true <-> desc s i j.
  Proof.
    intros F. induction n as [|n IH]; intros i c l Hc Hl Hp Hn.
    - pose proof (path_bound _ _ _ Hp) as B. rewrite (fo_size _ _ F) in B. lia.
    - cbn [get_descendants]. apply ctx_state_eqb_neq in Hl as Hl'. rewrite Hl'.
      set (f := fun k => match get_ctx s k with
                         | Some ch => get_descendants cf n s ch
                         | None => Err (InternalError DescendantIndexOob) end).
      rewrite (fold_left_ext _ (fun acc idx => rbind acc (fun a => rbind (f idx) (fun b => Ok (add_children a b))))).
      2:{ intros x y _. destruct x; cbn [rbind]; try reflexivity. unfold f.
          destruct (get_ctx s y); cbn [ok_or rbind]; reflexivity. }
      assert (G : forall k, child_of s i k -> exists b, f k = Ok b /\ forall j, mem b j = true <-> desc s k j).
      { intros k Hk. pose proof Hk as (ck & Hck & Hlk & _). unfold f. rewrite (Hck : get_ctx s k = Some ck).
        eapply IH; eauto; [eapply child_path; eauto|]. cbn. lia. }
      destruct (fold_union f (children_iter cf (c_children c)) (c_children c)) as (d & Hd & Hm).
      { intros k Hk. apply (in_children cf Hcf s i c k F Hc) in Hk. destruct (G k Hk) as (b & Hb & _); eauto. }
      exists d. split; [exact Hd|]. intros j. rewrite Hm. split.
      + intros [H|(k & b & H1 & H2 & H3)].
        * apply desc_one. apply (forest_child_bit cf Hcf s i c j F Hc); exact H.
        * apply (in_children cf Hcf s i c k F Hc) in H1. destruct (G k H1) as (b' & Hb' & Hm').
          eapply desc_more; [exact H1|]. apply Hm'. congruence.
      + intros H. inversion H; subst.
        * left. apply (forest_child_bit cf Hcf s i c j F Hc); assumption.
        * right. destruct (G k H0) as (b & Hb & Hm'). exists k, b.
          split; [apply (in_children cf Hcf s i c k F Hc); exact H0|]. split; [exact Hb|]. apply Hm'; exact H1.
  Qed.

  (** ** Paths, ancestors and descendants *)
  Lemma desc_below s i j l : forest cf s -> path s i l -> desc s i j -> exists l', path s j (l' ++ l) /\ l' <> [].
  Proof.
    intros F Hp H. revert l Hp. induction H as [i j H|i k j H1 H2 IH]; intros l Hp.
    - exists [j]. split; [|discriminate]. eapply child_path; eauto.
    - destruct (IH (k :: l)) as (l' & Hl' & Hne); [eapply child_path; eauto|].
      exists (l' ++ [k]). rewrite <- app_assoc. split; [exact Hl'|]. destruct l'; discriminate.
  Qed.

  Lemma desc_trans s i j k : desc s i j -> desc s j k -> desc s i k.
  Proof. induction 1; intros; eapply desc_more; eauto. Qed.

  Lemma path_in_desc s j l : path s j l -> forall i, In i l -> i = j \/ desc s i j.
  Proof.
    induction 1 as [j c Hc Hl Hp|j c l Hc Hl Hp Hpath IH]; intros i [<-|Hi]; auto.
    - destruct Hi.
    - right. destruct (IH i Hi) as [->|H].
      + apply desc_one. exists c; auto.
      + eapply desc_trans; [exact H|]. apply desc_one. exists c; auto.
  Qed.

  Lemma below_iff s i j : forest cf s -> live_at s i -> (below s i j <-> i = j \/ desc s i j).
  Proof.
    intros F Hi. split.
    - intros (l & Hp & Hin). eapply path_in_desc; eauto.
    - destruct (fo_acyclic _ _ F i Hi) as (l & Hl).
      destruct (path_head _ _ _ Hl) as (l0 & E).
      intros [<-|H]; [exists l; split; [exact Hl|rewrite E; left; reflexivity]|].
      destruct (desc_below _ _ _ _ F Hl H) as (l' & Hl' & _).
      exists (l' ++ l). split; [exact Hl'|]. apply in_or_app; right; rewrite E; left; reflexivity.
  Qed.

  (** ** Retired ancestors *)
  Definition only_child (s : state) (p i : nat) : Prop :=
    child_of s p i /\ forall j, child_of s p j -> j = i.

  (** The contexts collected above slot [i] (whose chain of ancestors is [l]). *)
  Inductive chain (s : state) : nat -> list nat -> nat -> Prop :=
  | chain_here i p l c : at_slot s p c -> c_state c = Retired -> only_child s p i ->
                         chain s i (p :: l) p
  | chain_up i p l c x : at_slot s p c -> c_state c = Retired -> only_child s p i ->
                         chain s p l x -> chain s i (p :: l) x.

  Lemma one_child_iter s p pc i :
    forest cf s -> at_slot s p pc -> child_of s p i ->
    (Nat.eqb (length (children_iter cf (c_children pc))) 1 = true <-> only_child s p i).
  Proof.
    intros F Hpc Hi. rewrite Nat.eqb_eq. pose proof (NoDup_children_iter cf Hcf (c_children pc)) as ND.
    pose proof (fun j => in_children cf Hcf s p pc j F Hpc) as IN.
    destruct (children_iter cf (c_children pc)) as [|x [|y l]] eqn:E; cbn.
    - split; [discriminate|]. intros _. apply IN in Hi; destruct Hi.
    - split; [|reflexivity]. intros _. split; [exact Hi|]. intros j Hj.
      apply IN in Hj. apply IN in Hi. destruct Hj as [<-|[]]. destruct Hi as [<-|[]]. reflexivity.
    - split; [discriminate|]. intros [_ H]. exfalso.
      assert (x = i) by (apply H, IN; left; reflexivity).
      assert (y = i) by (apply H, IN; right; left; reflexivity).
      subst. inversion ND as [|? ? Hn _]; subst. apply Hn; left; reflexivity.
  Qed.

  Definition up_list (s : state) (p : nat) (l : list nat) : Prop :=
    (p = ROOT /\ l = []) \/ (p <> ROOT /\ path s p l).

  Lemma collect_retired_spec s : forest cf s -> forall n i c p l acc,
    at_slot s i c -> live c -> c_parent c = p -> up_list s p l -> length l < n ->
    exists r, collect_retired cf n s p acc = Ok r /\
      forall j, mem r j = true <-> mem acc j = true \/ chain s i l j.
  Proof.
    intros F. induction n as [|n IH]; intros i c p l acc Hc Hl Hp Hup Hn; [lia|].
    cbn [collect_retired]. destruct Hup as [[-> ->]|[Hne Hpath]].
    - rewrite Nat.eqb_refl. exists acc. split; [reflexivity|]. intros j. split; [auto|].
      intros [H|H]; [exact H|inversion H].
    - apply Nat.eqb_neq in Hne as Hne'. rewrite Hne'.
      destruct (path_head _ _ _ Hpath) as (l0 & ->).
      destruct (path_live _ _ _ Hpath p (or_introl eq_refl)) as (pc & Hpc & Lpc).
      rewrite (Hpc : get_ctx s p = Some pc). cbn [ok_or rbind].
      assert (Hch : child_of s p i) by (exists c; auto).
      destruct (ctx_state_eqb (c_state pc) Retired && Nat.eqb (length (children_iter cf (c_children pc))) 1)%bool eqn:B.
      + apply andb_true_iff in B as [B1 B2]. apply ctx_state_eqb_eq in B1.
        apply (one_child_iter s p pc i F Hpc Hch) in B2.
        rewrite children_add_eq. assert (Hlt := at_lt _ _ _ Hpc). rewrite (fo_size _ _ F) in Hlt.
        apply Nat.ltb_lt in Hlt. rewrite Hlt. cbn [rbind].
        assert (Hup' : up_list s (c_parent pc) l0).
        { destruct (Nat.eq_dec (c_parent pc) ROOT) as [E|E].
          - left. split; [exact E|]. inversion Hpath; subst; [reflexivity|].
            pose proof (at_det _ _ _ _ Hpc H0); subst; congruence.
          - right. split; [exact E|]. destruct (path_parent _ _ _ _ Hpath Hpc E) as (l' & E' & Hl').
            inversion E'; subst; exact Hl'. }
        destruct (IH p pc (c_parent pc) l0 (N.lor acc (N.shiftl 1 (N.of_nat p))) Hpc Lpc eq_refl Hup')
          as (r & Hr & Hm); [cbn in Hn; lia|].
        exists r. split; [exact Hr|]. intros j. rewrite Hm, mem_lor, mem_bit, orb_true_iff, Nat.eqb_eq.
        split.
        * intros [[H|<-]|H]; [auto|right; econstructor; eauto|right; eapply chain_up; eauto].
        * intros [H|H]; [auto|]. inversion H; subst; auto.
      + exists acc. split; [reflexivity|]. intros j. split; [auto|]. intros [H|H]; [exact H|]. exfalso.
        assert (Q : forall c0, at_slot s p c0 -> c_state c0 = Retired -> only_child s p i -> False).
        { intros c0 H0 H1 H2. pose proof (at_det _ _ _ _ H0 Hpc); subst c0.
          apply (one_child_iter s p pc i F Hpc Hch) in H2. rewrite H1, H2 in B. discriminate. }
        inversion H; subst; eauto.
  Qed.

  (** ** The set of destroyed slots *)
  Lemma chain_in s i l x : chain s i l x -> In x l.
  Proof. induction 1; [left; reflexivity|right; assumption]. Qed.

  Lemma chain_doomed s t i l x : chain s i l x -> doomed s t i -> doomed s t x.
  Proof.
    induction 1 as [i p l c Hc Hr [H1 H2]|i p l c x Hc Hr [H1 H2] _ IH]; intros D.
    - eapply doomed_retired; eauto. intros j Hj. rewrite (H2 j Hj). exact D.
    - apply IH. eapply doomed_retired; eauto. intros j Hj. rewrite (H2 j Hj). exact D.
  Qed.

  (** Two members of one parent chain with the same parent are equal. *)
  Lemma chain_unique s t l p x y :
    forest cf s -> path s t l -> In x l -> In y l -> child_of s p x -> child_of s p y -> x = y.
  Proof.
    intros F Ht Hx Hy Cx Cy.
    destruct (path_suffix _ _ _ Ht _ Hx) as (a1 & a2 & E1 & P1).
    destruct (path_suffix _ _ _ Ht _ Hy) as (b1 & b2 & E2 & P2).
    destruct Cx as (cx & Hcx & Lx & Ex). destruct Cy as (cy & Hcy & Ly & Ey).
    assert (HP : live_at s p \/ p = ROOT).
    { destruct (Nat.eq_dec p ROOT) as [->|HR]; [auto|]. left.
      destruct (fo_up _ _ F x cx Hcx Lx) as (pc & Hpc & Lpc & _); [congruence|].
      rewrite Ex in Hpc. exists pc; auto. }
    assert (L : length a2 = length b2).
    { destruct HP as [Hp|Hp].
      - destruct (fo_acyclic _ _ F p Hp) as (lp & Hlp).
        assert (path s x (x :: lp)) by (eapply child_path; eauto; exists cx; auto).
        assert (path s y (y :: lp)) by (eapply child_path; eauto; exists cy; auto).
        pose proof (path_det _ _ _ P1 _ H) as D1. pose proof (path_det _ _ _ P2 _ H0) as D2.
        inversion D1; inversion D2; subst; reflexivity.
      - assert (path s x [x]) by (econstructor; eauto; congruence).
        assert (path s y [y]) by (econstructor; eauto; congruence).
        pose proof (path_det _ _ _ P1 _ H) as D1. pose proof (path_det _ _ _ P2 _ H0) as D2.
        inversion D1; inversion D2; subst; reflexivity. }
    assert (E : a1 ++ x :: a2 = b1 ++ y :: b2) by congruence.
    assert (La : length a1 = length b1).
    { apply (f_equal (@length nat)) in E. rewrite !app_length in E. cbn in E. lia. }
    apply app_inj_length in E as [_ E]; [|exact La]. congruence.
  Qed.

  (** No context is its own proper ancestor. *)
  Lemma no_cycle s i j : forest cf s -> live_at s i -> desc s i j -> below s j i -> False.
  Proof.
    intros F Hi D (l & Hl & Hin).
    destruct (desc_below _ _ _ _ F Hl D) as (l' & Hl' & Hne).
    destruct (path_suffix _ _ _ Hl _ Hin) as (l1 & l2 & E & P).
    pose proof (path_det _ _ _ Hl' _ P) as E2.
    apply (f_equal (@length nat)) in E, E2. rewrite app_length in E, E2. cbn in E, E2.
    destruct l'; [congruence|]. cbn in E2. lia.
  Qed.

  Lemma chain_closed s t l : forest cf s -> path s t (t :: l) ->
    forall i x, (i = t \/ chain s t l i) ->
    child_of s x i -> (exists c, at_slot s x c /\ c_state c = Retired) ->
    only_child s x i -> chain s t l x.
  Proof.
    intros F Ht i x Hi Cx (cx & Hcx & Hr) Ho.
    (* generalise over the start of the chain *)
    assert (G : forall i0 l0 y, chain s i0 l0 y -> path s i0 (i0 :: l0) -> child_of s x y ->
                only_child s x y -> chain s i0 l0 x).
    { clear i Hi Cx Ho. induction 1 as [i p l0 c Hc Hcr Hoc|i p l0 c y Hc Hcr Hoc Hch IH]; intros Hpath Cx Ho.
      - (* y = p, x is the parent of p *)
        destruct Cx as (cp & Hcp & Lp & Ep). pose proof (at_det _ _ _ _ Hcp Hc); subst cp.
        assert (Pp : path s p (p :: l0)).
        { inversion Hpath; subst. destruct (path_head _ _ _ H4) as (q & Eq). inversion Eq; subst. exact H4. }
        assert (HR : c_parent c <> ROOT) by (rewrite Ep; eapply root_not_slot; eauto; apply F).
        destruct (path_parent _ _ _ _ Pp Hc HR) as (l1 & E1 & P1). inversion E1; subst l1.
        destruct (path_head _ _ _ P1) as (l2 & ->).
        eapply chain_up; eauto. rewrite Ep in *. econstructor; eauto.
      - eapply chain_up; eauto. apply IH; auto.
        inversion Hpath; subst. destruct (path_head _ _ _ H4) as (q & Eq). inversion Eq; subst. exact H4. }
    destruct Hi as [->|Hi].
    - destruct Cx as (ct & Hct & Lt & Et).
      assert (HR : c_parent ct <> ROOT) by (rewrite Et; eapply root_not_slot; eauto; apply F).
      destruct (path_parent _ _ _ _ Ht Hct HR) as (l1 & E1 & P1). inversion E1; subst l1.
      destruct (path_head _ _ _ P1) as (l2 & ->). rewrite Et in *. econstructor; eauto.
    - eapply G; eauto.
  Qed.

  Lemma doomed_iff s t l : forest cf s -> path s t (t :: l) ->
    forall i, doomed s t i <-> below s t i \/ chain s t l i.
  Proof.
    intros F Ht.
    assert (Lt : live_at s t) by (eapply path_live; [exact Ht|left; reflexivity]).
    intros i; split.
    - induction 1 as [|p i D IH Hc|i c k Hc Hr Hk _ IH].
      + left. exists (t :: l); split; [exact Ht|left; reflexivity].
      + destruct IH as [IH|IH].
        * left. apply below_iff in IH; auto. apply below_iff; auto. right.
          destruct IH as [<-|IH]; [apply desc_one; exact Hc|].
          eapply desc_trans; [exact IH|apply desc_one; exact Hc].
        * (* p in the chain: its only child is in the chain or the target *)
          assert (G : forall i0 l0 y, chain s i0 l0 y ->
                      exists z, (z = i0 \/ chain s i0 l0 z) /\ only_child s y z).
          { clear. induction 1 as [i p l c Hc Hr Ho|i p l c x Hc Hr Ho _ (z & Hz & Hoz)]; eauto.
            exists z; split; [|exact Hoz]. right. destruct Hz as [->|Hz]; [econstructor; eauto|eapply chain_up; eauto]. }
          destruct (G _ _ _ IH) as (z & Hz & _ & Hoz). rewrite (Hoz i Hc).
          destruct Hz as [->|Hz]; [left; exists (t :: l); split; [exact Ht|left; reflexivity]|right; exact Hz].
      + (* retired, all children doomed *)
        assert (Lc : live c) by (unfold live; congruence).
        assert (Li : live_at s i) by (exists c; auto).
        (* either i is below t, or some child of i lies on the chain of t *)
        assert (A : below s t i \/ exists z, (z = t \/ chain s t l z) /\ child_of s i z).
        { destruct (IH k Hk) as [Hb|Hb]; [|right; exists k; auto].
          destruct (Nat.eq_dec k t) as [->|Hne]; [right; exists t; auto|]. left.
          destruct Hb as (lk & Hlk & Hin). destruct Hk as (ck & Hck & Lk & Ek).
          assert (HR : c_parent ck <> ROOT) by (rewrite Ek; eapply root_not_slot; eauto; apply F).
          destruct (path_parent _ _ _ _ Hlk Hck HR) as (l1 & -> & P1). rewrite Ek in P1.
          exists l1; split; [exact P1|]. destruct Hin as [E|Hin]; [congruence|exact Hin]. }
        destruct A as [A|(z & Hz & Cz)]; [left; exact A|]. right.
        eapply chain_closed; eauto. split; [exact Cz|].
        (* the ancestors of t that are collected lie on its path *)
        assert (OnPath : forall y, y = t \/ chain s t l y -> In y (t :: l)).
        { intros y [->|Hy]; [left; reflexivity|right; eapply chain_in; eauto]. }
        intros j Hj. destruct (IH j Hj) as [Hb|Hb].
        * destruct (Nat.eq_dec j t) as [->|Hne].
          -- eapply chain_unique; [exact F|exact Ht| | |exact Hj|exact Cz]; auto.
          -- (* t strictly above j, hence t above i; but i is above t *)
             exfalso.
             assert (Hti : below s t i).
             { destruct Hb as (lj & Hlj & Hin). destruct Hj as (cj & Hcj & Lj & Ej).
               assert (HR : c_parent cj <> ROOT) by (rewrite Ej; eapply root_not_slot; eauto; apply F).
               destruct (path_parent _ _ _ _ Hlj Hcj HR) as (l1 & -> & P1). rewrite Ej in P1.
               exists l1; split; [exact P1|]. destruct Hin as [E|Hin]; [congruence|exact Hin]. }
             assert (Dit : desc s i t).
             { destruct Hz as [->|Hz]; [apply desc_one; exact Cz|].
               destruct (path_in_desc _ _ _ Ht z) as [->|D]; [right; eapply chain_in; eauto|apply desc_one; exact Cz|].
               eapply desc_trans; [apply desc_one; exact Cz|exact D]. }
             exact (no_cycle s i t F Li Dit Hti).
        * eapply chain_unique; [exact F|exact Ht| | |exact Hj|exact Cz]; auto.
    - assert (DT : doomed s t t) by constructor.
      intros [H|H].
      + apply below_iff in H; auto. destruct H as [<-|H]; [exact DT|].
        assert (G : forall a b, desc s a b -> doomed s t a -> doomed s t b).
        { induction 1 as [a b Hab|a m b Ham Hmb IH]; intros D.
          - eapply doomed_child; eauto.
          - apply IH. eapply doomed_child; eauto. }
        eapply G; eauto.
      + eapply chain_doomed; eauto.
  Qed.

  (** ** The loop over the slots *)
  Lemma at_destroy_slots d s i c' :
    at_slot (destroy_slots cf d s) i c' <-> exists c, at_slot s i c /\ c' = destroy_slot cf d (i, c).
  Proof.
    unfold at_slot, destroy_slots; cbn [set_contexts st_contexts]. rewrite nth_error_map, nth_error_enumerate.
    destruct (nth_error (st_contexts s) i) as [c|]; cbn [option_map].
    - split; [intros H; inversion H; eauto|intros (c0 & H & ->); inversion H; reflexivity].
    - split; [discriminate|intros (c0 & H & _); discriminate].
  Qed.

  Lemma destroy_slots_pruned s d (D : nat -> Prop) :
    length (st_contexts s) = max_handles cf ->
    (forall j, mem d j = true <-> D j) -> (forall j, D j -> j < max_handles cf) ->
    pruned cf s D (destroy_slots cf d s).
  Proof.
    intros L Hd HD. split; [repeat split|]. split.
    { unfold destroy_slots; cbn [set_contexts st_contexts]. rewrite map_length, length_enumerate. reflexivity. }
    intros i c Hc. exists (destroy_slot cf d (i, c)). split; [apply at_destroy_slots; eauto|].
    unfold destroy_slot; cbn [fst snd]. assert (Hlt := at_lt _ _ _ Hc). rewrite L in Hlt.
    rewrite has_child_eq. apply Nat.ltb_lt in Hlt as Hlt'. rewrite Hlt'. cbn [andb].
    split; intros Hi.
    - apply Hd in Hi. rewrite Hi. split; [repeat split|]. repeat split.
    - assert (Hm : mem d i = false).
      { destruct (mem d i) eqn:E; [|reflexivity]. exfalso; apply Hi, Hd; exact E. }
      rewrite Hm. split; [repeat split|]. intros j. cbn [set_children c_children].
      unfold remove_children. rewrite <- mem_has_bit, mem_ldiff, andb_true_iff, negb_true_iff, <- mem_has_bit.
      split.
      + intros [H1 H2]. split; [exact H1|]. intros X; apply Hd in X; congruence.
      + intros [H1 H2]. split; [exact H1|]. destruct (mem d j) eqn:E; [|reflexivity].
        exfalso; apply H2, Hd; exact E.
  Qed.

  (** ** The effect of [destroy_context] *)
  Theorem destroy_spec h s loc s' :
    forest cf s -> destroy_context cf h s loc = Ok s' ->
    exists t, first_slot (names s h loc) t /\ pruned cf s (doomed s t) s'.
  Proof.
    intros F H. unfold destroy_context in H.
    destruct (get_active_context_and_idx s h loc) as [[c t]|e|k] eqn:E; cbn [rbind] in H; try discriminate.
    apply lookup_idx_ok in E as [Hf Hc]. exists t. split; [exact Hf|].
    destruct (negb (N.eqb (c_locality c) loc)); [discriminate|].
    destruct Hf as [(c0 & Hc0 & Ha & _ & _) _]. pose proof (at_det _ _ _ _ Hc0 Hc); subst c0.
    assert (Lc : live c) by (unfold live; congruence).
    assert (Lt : live_at s t) by (exists c; auto).
    destruct (fo_acyclic _ _ F t Lt) as (l & Hl).
    destruct (path_head _ _ _ Hl) as (l0 & ->).
    pose proof (path_bound _ _ _ Hl) as B. rewrite (fo_size _ _ F) in B. cbn [length] in B.
    assert (FU : max_handles cf < fuel cf) by apply Hcf.
    destruct (get_descendants_spec s F (fuel cf) t c (t :: l0) Hc Lc Hl) as (d & Hd & Hdm); [lia|].
    destruct (collect_retired_spec s F (fuel cf) t c (c_parent c) l0 0 Hc Lc eq_refl) as (r & Hr & Hrm).
    { destruct (Nat.eq_dec (c_parent c) ROOT) as [E|E].
      - left; split; [exact E|]. inversion Hl; subst; [reflexivity|].
        pose proof (at_det _ _ _ _ Hc H1); subst; congruence.
      - right; split; [exact E|]. destruct (path_parent _ _ _ _ Hl Hc E) as (l' & E' & Hl').
        inversion E'; subst; exact Hl'. }
    { lia. }
    rewrite Hr, Hd in H. cbn [rbind] in H. rewrite children_add_eq in H.
    assert (Hlt := at_lt _ _ _ Hc). rewrite (fo_size _ _ F) in Hlt. apply Nat.ltb_lt in Hlt as Hlt'.
    rewrite Hlt' in H. cbn [rbind] in H. apply Ok_inj in H. subst s'.
    assert (DI : forall j, doomed s t j -> j < max_handles cf).
    { intros j Hj. apply (doomed_iff s t l0 F Hl) in Hj.
      assert (live_at s j) as (cj & Hcj & _).
      { destruct Hj as [(lj & Hlj & _)|Hj].
        - eapply path_live; [exact Hlj|]. destruct (path_head _ _ _ Hlj) as (? & ->); left; reflexivity.
        - eapply path_live; [exact Hl|]. right. eapply chain_in; eauto. }
      apply at_lt in Hcj. rewrite (fo_size _ _ F) in Hcj. exact Hcj. }
    apply destroy_slots_pruned; [apply F| |exact DI].
    intros j. unfold add_children. rewrite !mem_lor, mem_bit, !orb_true_iff, Nat.eqb_eq, Hdm, Hrm, mem_0.
    rewrite (doomed_iff s t l0 F Hl), (below_iff s t j F Lt). split.
    - intros [[H|<-]|[H|H]]; auto; discriminate.
    - intros [[<-|H]|H]; auto.
  Qed.

  (** ** Forest integrity after removing a set of slots *)
  Lemma forest_pruned s (D : nat -> Prop) s' :
    (forall i, D i \/ ~ D i) ->
    forest cf s -> pruned cf s D s' ->
    (forall p i, D p -> child_of s p i -> D i) ->
    (forall i c k, at_slot s i c -> c_state c = Retired -> child_of s i k ->
                   (forall j, child_of s i j -> D j) -> D i) ->
    forest cf s'.
  Proof.
    intros Dd F (G & L & HS) Dc Dr.
    assert (FW : forall i c, at_slot s i c -> ~ D i -> exists c', at_slot s' i c' /\ same_but_children c c' /\
               forall j, has_bit (c_children c') j <-> has_bit (c_children c) j /\ ~ D j).
    { intros i c Hc Hn. destruct (HS i c Hc) as (c' & H1 & _ & H3). exists c'. destruct (H3 Hn). auto. }
    assert (BW : forall i c', at_slot s' i c' -> exists c, at_slot s i c /\
               (blank cf c' /\ D i \/ ~ D i /\ same_but_children c c' /\
               forall j, has_bit (c_children c') j <-> has_bit (c_children c) j /\ ~ D j)).
    { intros i c' Hc'. pose proof (at_lt _ _ _ Hc') as Hlt. rewrite L in Hlt.
      apply nth_error_ex in Hlt as (c & Hc). exists c; split; [exact Hc|].
      destruct (HS i c Hc) as (c2 & H1 & H2 & H3). rewrite (at_det _ _ _ _ Hc' H1).
      destruct (Dd i) as [Hi|Hi]; [left; split; [apply H2; exact Hi|exact Hi]|right; destruct (H3 Hi); auto]. }
    assert (UP : forall i c, at_slot s i c -> live c -> ~ D i -> c_parent c <> ROOT -> ~ D (c_parent c)).
    { intros i c Hc Hl Hn Hp X. apply Hn. eapply Dc; [exact X|]. exists c; auto. }
    assert (LV : forall c c', same_but_children c c' -> (live c' <-> live c)).
    { intros c c' S. unfold live. replace (c_state c') with (c_state c); [tauto|]. symmetry; apply S. }
    assert (CO : forall p i, child_of s p i -> ~ D i -> child_of s' p i).
    { intros p i (c & Hc & Hl & Hp) Hn. destruct (FW i c Hc Hn) as (c' & H1 & H2 & _).
      exists c'. split; [exact H1|]. split; [apply (LV _ _ H2); exact Hl|]. destruct H2 as (_ & _ & _ & H2 & _). congruence. }
    assert (NB : forall c', blank cf c' -> ~ live c').
    { intros c' (B & _) X. apply X; exact B. }
    constructor.
    - rewrite L; apply F.
    - intros i c' Hc' Hl' Hp'. destruct (BW i c' Hc') as (c & Hc & [[B _]|(Hn & S & Hb)]); [destruct (NB _ B Hl')|].
      apply (LV _ _ S) in Hl'. assert (Ep : c_parent c' = c_parent c) by apply S. rewrite Ep in *.
      destruct (fo_up _ _ F i c Hc Hl' Hp') as (p & Hp1 & Hp2 & Hp3).
      destruct (FW _ p Hp1 (UP i c Hc Hl' Hn Hp')) as (p' & Q1 & Q2 & Q3).
      exists p'. split; [exact Q1|]. split; [apply (LV _ _ Q2); exact Hp2|]. apply Q3; auto.
    - intros i c' j Hc' Hbit. destruct (BW i c' Hc') as (c & Hc & [[B _]|(Hn & S & Hb)]).
      + destruct B as (_ & _ & B & _). rewrite B in Hbit. unfold has_bit in Hbit; rewrite N.bits_0 in Hbit; discriminate.
      + destruct (proj1 (Hb j) Hbit) as [Hbit2 Hnj]; clear Hbit; rename Hbit2 into Hbit. destruct (fo_down _ _ F i c j Hc Hbit) as [H1 H2].
        split; [apply (LV _ _ S); exact H1|]. apply CO; auto.
    - intros i (c' & Hc' & Hl'). destruct (BW i c' Hc') as (c & Hc & [[B _]|(Hn & S & Hb)]); [destruct (NB _ B Hl')|].
      apply (LV _ _ S) in Hl'. destruct (fo_acyclic _ _ F i) as (l & Hp); [exists c; auto|].
      exists l. eapply path_map; [exact Hp|]. intros a x Ha Hx Hlx.
      assert (Na : ~ D a).
      { clear - Hp Ha Hn UP. revert Ha Hn. induction Hp as [i c Hc Hl Hr|i c l Hc Hl Hr Hp IH]; intros Ha Hn.
        - destruct Ha as [E|Ha]; [rewrite <- E; exact Hn|destruct Ha].
        - destruct Ha as [E|Ha]; [rewrite <- E; exact Hn|]. apply IH; eauto. }
      destruct (FW a x Hx Na) as (x' & H1 & H2 & _). exists x'. split; [exact H1|].
      split; [apply (LV _ _ H2); exact Hlx|apply H2].
    - intros i c' Hc' Hin. destruct (BW i c' Hc') as (c & Hc & [[B _]|(Hn & S & Hb)]); [apply B|].
      assert (Ep : c_parent c' = c_parent c) by apply S. assert (Es : c_state c' = c_state c) by apply S.
      rewrite Ep. apply (fo_inactive _ _ F i c Hc). congruence.
    - intros i c' Hc' Hr. destruct (BW i c' Hc') as (c & Hc & [[B _]|(Hn & S & Hb)]).
      { destruct B as [B _]. congruence. }
      assert (Es : c_state c' = c_state c) by apply S. rewrite Es in Hr.
      destruct (fo_retired _ _ F i c Hc Hr) as (k & Hk).
      assert (Ck : child_of s i k) by (apply (fo_down _ _ F i c k Hc Hk)).
      (* some child survives, otherwise the slot would have been removed *)
      assert (X : forall n, (exists j, j < n /\ has_bit (c_children c) j /\ ~ D j) \/
                            (forall j, j < n -> has_bit (c_children c) j -> D j)).
      { induction n as [|n [(j & J1 & J2)|IH]].
        - right; intros; lia.
        - left; exists j; split; [lia|exact J2].
        - destruct (Dd n) as [Hd|Hd].
          + right. intros j Hj Hbj. destruct (Nat.eq_dec j n) as [->|]; [exact Hd|]. apply IH; [lia|exact Hbj].
          + destruct (mem (c_children c) n) eqn:M.
            * left; exists n; split; [lia|]. split; [exact M|exact Hd].
            * right. intros j Hj Hbj. destruct (Nat.eq_dec j n) as [->|]; [|apply IH; [lia|exact Hbj]].
              apply mem_has_bit in Hbj; congruence. }
      destruct (X (max_handles cf)) as [(j & _ & J1 & J2)|X0].
      + exists j. apply Hb; auto.
      + exfalso. apply Hn. eapply Dr; eauto. intros j Hj.
        assert (M : mem (c_children c) j = true) by (apply (forest_child_bit cf Hcf s i c j F Hc); exact Hj).
        apply X0; [eapply forest_child_lt; eauto|exact M].
  Qed.

  Lemma doomed_dec s t : forest cf s -> live_at s t -> forall i, doomed s t i \/ ~ doomed s t i.
  Proof.
    intros F Lt i. destruct (fo_acyclic _ _ F t Lt) as (l & Hl).
    destruct (path_head _ _ _ Hl) as (l0 & ->).
    pose proof (path_bound _ _ _ Hl) as B. rewrite (fo_size _ _ F) in B. cbn [length] in B.
    assert (FU : max_handles cf < fuel cf) by apply Hcf.
    destruct Lt as (c & Hc & Lc). assert (Lt : live_at s t) by (exists c; auto).
    destruct (get_descendants_spec s F (fuel cf) t c (t :: l0) Hc Lc Hl) as (d & Hd & Hdm); [lia|].
    destruct (collect_retired_spec s F (fuel cf) t c (c_parent c) l0 0 Hc Lc eq_refl) as (r & Hr & Hrm).
    { destruct (Nat.eq_dec (c_parent c) ROOT) as [E|E].
      - left; split; [exact E|]. inversion Hl; subst; [reflexivity|].
        pose proof (at_det _ _ _ _ Hc H0); subst; congruence.
      - right; split; [exact E|]. destruct (path_parent _ _ _ _ Hl Hc E) as (l' & E' & Hl').
        inversion E'; subst; exact Hl'. }
    { lia. }
    rewrite (doomed_iff s t l0 F Hl), (below_iff s t i F Lt), <- Hdm.
    specialize (Hrm i). rewrite mem_0 in Hrm.
    destruct (Nat.eq_dec t i) as [->|Hne]; [auto|].
    destruct (mem d i); [auto|]. destruct (mem r i).
    - left; right. destruct Hrm as [Hrm _]. destruct (Hrm eq_refl); [discriminate|assumption].
    - right. intros [[H|H]|H]; try congruence. destruct Hrm as [_ Hrm]. specialize (Hrm (or_intror H)). discriminate.
  Qed.

  Theorem destroy_forest h s loc s' :
    forest cf s -> destroy_context cf h s loc = Ok s' -> forest cf s'.
  Proof.
    intros F H. destruct (destroy_spec h s loc s' F H) as (t & Hf & Hp).
    assert (Lt : live_at s t).
    { destruct Hf as [(c & Hc & Ha & _) _]. exists c; split; [exact Hc|unfold live; congruence]. }
    eapply (forest_pruned s (doomed s t) s'); eauto.
    - apply doomed_dec; auto.
    - intros; eapply doomed_child; eauto.
    - intros; eapply doomed_retired; eauto.
  Qed.

  (** On a well-formed state destroying succeeds as soon as the handle is valid. *)
  Theorem destroy_total h s loc t :
    forest cf s -> first_slot (names s h loc) t -> exists s', destroy_context cf h s loc = Ok s'.
  Proof.
    intros F Hf. unfold destroy_context.
    pose proof Hf as [(c & Hc & Ha & Hloc & _) _].
    assert (E : get_active_context_and_idx s h loc = Ok (c, t)) by (apply lookup_idx_ok; auto).
    rewrite E. cbn [rbind]. rewrite Hloc, N.eqb_refl. cbn [negb].
    assert (Lc : live c) by (unfold live; congruence).
    assert (Lt : live_at s t) by (exists c; auto).
    destruct (fo_acyclic _ _ F t Lt) as (l & Hl).
    destruct (path_head _ _ _ Hl) as (l0 & ->).
    pose proof (path_bound _ _ _ Hl) as B. rewrite (fo_size _ _ F) in B. cbn [length] in B.
    assert (FU : max_handles cf < fuel cf) by apply Hcf.
    destruct (get_descendants_spec s F (fuel cf) t c (t :: l0) Hc Lc Hl) as (d & Hd & Hdm); [cbn [length]; lia|].
    destruct (collect_retired_spec s F (fuel cf) t c (c_parent c) l0 0 Hc Lc eq_refl) as (r & Hr & Hrm).
    { destruct (Nat.eq_dec (c_parent c) ROOT) as [Er|Er].
      - left; split; [exact Er|]. inversion Hl; subst; [reflexivity|].
        pose proof (at_det _ _ _ _ Hc H0); subst; congruence.
      - right; split; [exact Er|]. destruct (path_parent _ _ _ _ Hl Hc Er) as (l' & E' & Hl').
        inversion E'; subst; exact Hl'. }
    { lia. }
    rewrite Hr, Hd. cbn [rbind]. rewrite children_add_eq.
    pose proof (at_lt _ _ _ Hc) as Hlt. rewrite (fo_size _ _ F) in Hlt.
    destruct (Nat.ltb_spec t (max_handles cf)); [|lia]. cbn [rbind]. eauto.
  Qed.
End Cf.
