(** Walk.v -- the child-to-root iterator, related to the parent chains of the
    specification. *)
From Verif Require Import Base Errors Types StateOps Lib Spec Exec Forest.
Local Open Scope nat_scope.

(** ** Specification *)

(** The contexts on the way from slot [i] to its root, [i]'s own first. *)
Definition lineage (s : state) (i : nat) (cs : list context) : Prop :=
  exists l, path s i l /\ Forall2 (at_slot s) l cs.

(** Taking items off the two ends of a list: [true] takes the last one. *)
Fixpoint pops {A} (ends : list bool) (l : list A) : list (option A) :=
  match ends with
  | [] => []
  | e :: ends' =>
      match l with
      | [] => None :: pops ends' []
      | x :: l' =>
          if e then Some (last l x) :: pops ends' (removelast l)
          else Some x :: pops ends' l'
      end
  end.

(** Calling the iterator repeatedly. *)
Fixpoint calls (cf : config) (ends : list bool) (l : list context) (it : ctr_iter)
  : list (option (result context)) :=
  match ends with
  | [] => []
  | e :: ends' =>
      let '(r, it') := if e then iter_next_back cf l it else iter_next cf l it in
      r :: calls cf ends' l it'
  end.

(** A way to find the lineage in concrete states. *)
Fixpoint chain_fn (n : nat) (s : state) (i : nat) : option (list context) :=
  match n with
  | O => None
  | S n' =>
      match nth_error (st_contexts s) i with
      | Some c => if is_live c then
                    if Nat.eqb (c_parent c) ROOT then Some [c]
                    else option_map (cons c) (chain_fn n' s (c_parent c))
                  else None
      | None => None
      end
  end.

(** ** Proofs *)

Lemma chain_fn_ok s n : forall i cts, chain_fn n s i = Some cts -> lineage s i cts.
Proof.
  induction n as [|n IH]; intros i cts H; [discriminate|]. cbn [chain_fn] in H.
  destruct (nth_error (st_contexts s) i) as [c|] eqn:E; [|discriminate].
  destruct (is_live c) eqn:L; [|discriminate].
  assert (Lc : live c) by (unfold live, is_live in *; destruct (c_state c); [discriminate|discriminate|discriminate]).
  destruct (Nat.eqb_spec (c_parent c) ROOT) as [R|R].
  - injection H as <-. exists [i]. split; [econstructor; eauto|repeat constructor; exact E].
  - destruct (chain_fn n s (c_parent c)) as [l|] eqn:El; [|discriminate]. injection H as <-.
    destruct (IH _ _ El) as (sl & P & Fa). exists (i :: sl). split; [econstructor; eauto|constructor; assumption].
Qed.

Lemma lineage_det s i a b : lineage s i a -> lineage s i b -> a = b.
Proof.
  intros (l & P & F) (l' & P' & F'). rewrite (path_det _ _ _ P _ P') in F.
  clear P P'. revert b F'. induction F; intros b' F'; inversion F'; subst; [reflexivity|].
  f_equal; [|apply IHF; assumption]. eapply at_det; eauto.
Qed.

Section Walk.
  Variable cf : config.
  Hypothesis Hcf : config_ok cf.

  Section Good.
    Variable s : state.
    Hypothesis F : forest cf s.
    Let cs := st_contexts s.

    Lemma lineage_ex i : live_at s i -> exists l, lineage s i l.
    Proof.
      intros L. destruct (fo_acyclic _ _ F i L) as (l & P).
      assert (A : forall m, (forall a, In a m -> live_at s a) -> exists c, Forall2 (at_slot s) m c).
      { induction m as [|a m IH]; intros H; [exists []; constructor|].
        destruct (H a (or_introl eq_refl)) as (c & Hc & _).
        destruct IH as (d & Hd); [intros x Hx; apply H; right; exact Hx|].
        exists (c :: d); constructor; assumption. }
      destruct (A l) as (c & Hc); [apply (path_live _ _ _ P)|]. exists c, l; auto.
    Qed.

    Lemma get_live i c : at_slot s i c -> live c -> iter_get_context cf cs i = Ok c.
    Proof.
      intros Hc L. unfold iter_get_context, cs. unfold at_slot in Hc. rewrite Hc.
      assert (V : Nat.leb (c_parent c) (max_handles cf - 1) || Nat.eqb (c_parent c) ROOT = true).
      { destruct (Nat.eqb_spec (c_parent c) ROOT) as [E|E]; [apply orb_true_r|].
        destruct (fo_up _ _ F i c Hc L E) as (p & Hp & _). apply at_lt in Hp.
        rewrite (fo_size _ _ F) in Hp. apply orb_true_iff; left. apply Nat.leb_le. lia. }
      rewrite V. destruct (c_state c) eqn:E; try reflexivity. exfalso; apply L; exact E.
    Qed.

    Lemma new_loop_path i l : path s i l -> forall n k, length l <= n ->
      k + length l <= max_handles cf ->
      iter_new_loop cf n cs i k = Ok (last l 0, k + length l).
    Proof.
      induction 1 as [i c Hc Hl Hp|i c l Hc Hl Hp Hpath IH]; intros n k Hn Hk;
        (destruct n as [|n]; [cbn [length] in Hn; lia|]); cbn [iter_new_loop length] in *;
        rewrite (get_live i c Hc Hl); cbn [rbind];
        (destruct (Nat.ltb_spec (max_handles cf) (S k)); [lia|]).
      - rewrite Hp, Nat.eqb_refl. cbn [last]. repeat f_equal; lia.
      - destruct (Nat.eqb_spec (c_parent c) ROOT); [contradiction|].
        rewrite (IH n (S k)) by lia. destruct (path_head _ _ _ Hpath) as (l2 & ->). cbn [last length]. f_equal. f_equal.
        lia.
    Qed.

    Lemma iter_new_path i l : path s i l ->
      iter_new cf i cs = Ok (mkIter i (last l 0) (length l) false 0).
    Proof.
      intros P. pose proof (path_bound _ _ _ P) as B. rewrite (fo_size _ _ F) in B.
      unfold iter_new. rewrite (new_loop_path i l P) by lia. reflexivity.
    Qed.

    Lemma on_path i l : path s i l -> forall t n, length l <= n ->
      is_node_on_path cf n cs i t = Ok (existsb (Nat.eqb t) l).
    Proof.
      induction 1 as [i c Hc Hl Hp|i c l Hc Hl Hp Hpath IH]; intros t n Hn;
        (destruct n as [|n]; [cbn [length] in Hn; lia|]); cbn [is_node_on_path existsb length] in *;
        rewrite (Nat.eqb_sym t i); (destruct (Nat.eqb_spec i t); [reflexivity|]);
        rewrite (get_live i c Hc Hl); cbn [rbind].
      - rewrite Hp, Nat.eqb_refl. reflexivity.
      - destruct (Nat.eqb_spec (c_parent c) ROOT); [contradiction|].
        rewrite IH by lia. reflexivity.
    Qed.

    Lemma path_fuel i l : path s i l -> length l <= fuel cf.
    Proof.
      intros P. pose proof (path_bound _ _ _ P) as B. rewrite (fo_size _ _ F) in B.
      destruct Hcf as (_ & _ & Hfu). lia.
    Qed.

    Lemma find_path i l : path s i l -> forall cands,
      find_on_path cf cs i cands = Ok (find (fun t => existsb (Nat.eqb t) l) cands).
    Proof.
      intros P. induction cands as [|t cands IH]; [reflexivity|].
      cbn [find_on_path find]. rewrite (on_path i l P) by (eapply path_fuel; eauto).
      cbn [rbind]. destruct (existsb (Nat.eqb t) l); [reflexivity|exact IH].
    Qed.

    (** What the iterator still has to deliver. *)
    Definition remaining (r : list nat) (it : ctr_iter) : Prop :=
      match r with
      | [] => it_done it = true \/ it_path_len it <= it_count it
      | x :: _ =>
          exists tl, path s x (r ++ tl) /\ it_front it = x /\ it_back it = last r 0 /\
            it_done it = false /\ it_path_len it = it_count it + length r /\
            it_path_len it <= max_handles cf
      end.

    Lemma remaining_new i l : path s i l ->
      remaining l (mkIter i (last l 0) (length l) false 0).
    Proof.
      intros P. pose proof (path_bound _ _ _ P) as B. rewrite (fo_size _ _ F) in B.
      destruct (path_head _ _ _ P) as (l' & ->). exists []. rewrite app_nil_r. cbn. repeat split; auto.
    Qed.

    Lemma next_none it : remaining [] it ->
      fst (iter_next cf cs it) = None /\ remaining [] (snd (iter_next cf cs it)).
    Proof.
      unfold iter_next. intros [D|D]; [rewrite D; split; [reflexivity|left; exact D]|].
      destruct (it_done it) eqn:E; [split; [reflexivity|left; exact E]|].
      destruct (Nat.leb_spec (it_path_len it) (it_count it)); [|lia].
      split; [reflexivity|left; reflexivity].
    Qed.
    Lemma next_back_none it : remaining [] it ->
      fst (iter_next_back cf cs it) = None /\ remaining [] (snd (iter_next_back cf cs it)).
    Proof.
      unfold iter_next_back. intros [D|D]; [rewrite D; split; [reflexivity|left; exact D]|].
      destruct (it_done it) eqn:E; [split; [reflexivity|left; exact E]|].
      destruct (Nat.leb_spec (it_path_len it) (it_count it)); [|lia].
      split; [reflexivity|left; reflexivity].
    Qed.

    Lemma next_some x r it c : remaining (x :: r) it -> at_slot s x c ->
      fst (iter_next cf cs it) = Some (Ok c) /\ remaining r (snd (iter_next cf cs it)).
    Proof.
      intros (tl & P & E1 & E2 & E3 & E4 & E5) Hc. unfold iter_next. rewrite E3.
      cbn [length] in E4.
      destruct (Nat.leb_spec (it_path_len it) (it_count it)); [lia|].
      destruct (Nat.leb_spec (max_handles cf) (it_count it)); [lia|].
      assert (L : live c).
      { destruct (path_live _ _ _ P x) as (d & Hd & Ld); [left; reflexivity|].
        rewrite (at_det _ _ _ _ Hc Hd). exact Ld. }
      rewrite E1, (get_live x c Hc L). cbn [fst snd]. split; [reflexivity|].
      destruct r as [|y r].
      - right. cbn in *. lia.
      - cbn [app] in P. inversion P as [|? d ? Hd Ld Nd P' ]; subst.
        rewrite (at_det _ _ _ _ Hd Hc) in *.
        destruct (path_head _ _ _ P') as (l' & El). injection El as Ey _.
        exists tl. cbn [it_front it_back it_path_len it_count it_done].
        split; [rewrite <- Ey in P' at 1; exact P'|]. split; [congruence|].
        split; [exact E2|]. split; [apply Nat.eqb_neq; exact Nd|]. cbn [length] in *. lia.
    Qed.

    Lemma last_snoc {A} (l : list A) x d : last (l ++ [x]) d = x.
    Proof. apply last_last. Qed.

    Lemma next_back_some r z it c : remaining (r ++ [z]) it -> at_slot s z c ->
      fst (iter_next_back cf cs it) = Some (Ok c) /\ remaining r (snd (iter_next_back cf cs it)).
    Proof.
      intros R Hc.
      assert (R' : exists x tl, hd 0 (r ++ [z]) = x /\ path s x ((r ++ [z]) ++ tl) /\ it_front it = x /\
         it_back it = z /\ it_done it = false /\ it_path_len it = it_count it + S (length r) /\
         it_path_len it <= max_handles cf).
      { unfold remaining in R. destruct (r ++ [z]) as [|x m] eqn:E; [destruct r; discriminate|].
        destruct R as (tl & P & E1 & E2 & E3 & E4 & E5). exists x, tl. split; [reflexivity|].
        split; [exact P|]. split; [exact E1|]. split; [rewrite E2, <- E; apply last_snoc|].
        split; [exact E3|]. split; [|exact E5]. rewrite E4. f_equal. rewrite <- E, app_length. cbn. lia. }
      clear R. destruct R' as (x & tl & Ex & P & E1 & E2 & E3 & E4 & E5).
      unfold iter_next_back. rewrite E3.
      destruct (Nat.leb_spec (it_path_len it) (it_count it)); [lia|].
      destruct (Nat.leb_spec (max_handles cf) (it_count it)); [lia|].
      assert (Iz : In z ((r ++ [z]) ++ tl)).
      { apply in_or_app; left; apply in_or_app; right; left; reflexivity. }
      assert (L : live c).
      { destruct (path_live _ _ _ P z Iz) as (d & Hd & Ld). rewrite (at_det _ _ _ _ Hc Hd). exact Ld. }
      rewrite E2, (get_live z c Hc L), E1.
      pose proof (path_NoDup _ _ _ P) as ND.
      (* the chain above z *)
      assert (Pz : path s z (z :: tl)).
      { destruct (path_suffix _ _ _ P z Iz) as (l1 & l2 & E & Pz).
        rewrite <- app_assoc in E. cbn [app] in E.
        assert (l1 = r /\ l2 = tl) as [-> ->]; [|exact Pz].
        assert (NE : forall a b (t u : list nat), NoDup (a ++ z :: t) -> a ++ z :: t = b ++ z :: u -> a = b /\ t = u).
        { clear. induction a as [|p a IH]; intros [|q b] t u N E; cbn [app] in *.
          - injection E as ->; auto.
          - injection E as <- E. exfalso. inversion N as [|? ? NI]; subst. apply NI, in_or_app; right; left; reflexivity.
          - injection E as -> E. exfalso. inversion N as [|? ? NI]; subst. apply NI, in_or_app; right; left; reflexivity.
          - injection E as -> E. inversion N; subst. destruct (IH b t u) as [-> ->]; auto. }
        rewrite <- app_assoc in ND. cbn [app] in ND.
        destruct (NE r l1 tl l2 ND) as [-> ->]; auto. }
      destruct (Nat.eqb_spec x z) as [->|Nxz].
      - (* only z is left *)
        cbn [fst snd]. split; [reflexivity|].
        assert (r = []) as ->; [|left; reflexivity].
        destruct r as [|y r]; [reflexivity|exfalso]. cbn in Ex. subst y.
        rewrite <- app_assoc in ND. cbn [app] in ND. inversion ND as [|? ? NI]; subst.
        apply NI, in_or_app; right; left; reflexivity.
      - destruct (exists_last (l := r)) as (r' & y & ->).
        { intros ->. cbn in Ex. congruence. }
        rewrite (find_path _ _ P).
        set (p := fun t => existsb (Nat.eqb t) (((r' ++ [y]) ++ [z]) ++ tl)).
        assert (Cy : child_of s z y).
        { assert (Iy : In y (((r' ++ [y]) ++ [z]) ++ tl)).
          { apply in_or_app; left; apply in_or_app; left; apply in_or_app; right; left; reflexivity. }
          destruct (path_suffix _ _ _ P y Iy) as (l1 & l2 & E & Py).
          rewrite <- !app_assoc in E, ND. cbn [app] in E, ND.
          assert (NE : forall a b (t u : list nat), NoDup (a ++ y :: t) -> a ++ y :: t = b ++ y :: u -> a = b /\ t = u).
          { clear. induction a as [|p a IH]; intros [|q b] t u N E; cbn [app] in *.
            - injection E as ->; auto.
            - injection E as <- E. exfalso. inversion N as [|? ? NI]; subst. apply NI, in_or_app; right; left; reflexivity.
            - injection E as -> E. exfalso. inversion N as [|? ? NI]; subst. apply NI, in_or_app; right; left; reflexivity.
            - injection E as -> E. inversion N; subst. destruct (IH b t u) as [-> ->]; auto. }
          destruct (NE r' l1 (z :: tl) l2 ND E) as [_ <-].
          inversion Py as [|? d ? Hd Ld Nd Pd]; subst. exists d. split; [exact Hd|]. split; [exact Ld|].
          destruct (path_head _ _ _ Pd) as (? & Eh). congruence. }
        assert (U : forall t, In t (children_iter cf (c_children c)) -> p t = true -> t = y).
        { intros t It Hp. apply (proj1 (in_children cf Hcf s z c t F Hc)) in It.
          unfold p in Hp. apply existsb_exists in Hp as (t' & It' & Et). apply Nat.eqb_eq in Et. subst t'.
          pose proof (child_path cf Hcf s z t (z :: tl) F Pz It) as Pt.
          destruct (path_suffix _ _ _ P t It') as (l1 & l2 & E & Pt').
          pose proof (path_det _ _ _ Pt _ Pt') as D. injection D as <-.
          rewrite <- !app_assoc in E. cbn [app] in E.
          change (t :: z :: tl) with ([t] ++ z :: tl) in E. change (y :: z :: tl) with ([y] ++ z :: tl) in E.
          rewrite !app_assoc in E. apply app_inv_tail in E. apply app_inj_tail in E. symmetry. apply E. }
        assert (Fi : find p (children_iter cf (c_children c)) = Some y).
        { destruct (find p (children_iter cf (c_children c))) as [t|] eqn:Ef.
          - f_equal. apply find_some in Ef as [A B]. apply U; assumption.
          - exfalso. pose proof (find_none _ _ Ef y (proj2 (in_children cf Hcf s z c y F Hc) Cy)) as N.
            unfold p in N. rewrite <- Bool.not_true_iff_false in N. apply N.
            apply existsb_exists. exists y. split; [|apply Nat.eqb_refl].
            apply in_or_app; left; apply in_or_app; left; apply in_or_app; right; left; reflexivity. }
        fold p. rewrite Fi. cbn [fst snd]. split; [reflexivity|].
        assert (X : hd 0 (r' ++ [y]) = x) by (destruct r'; exact Ex).
        unfold remaining. destruct (r' ++ [y]) as [|x' m] eqn:Er; [destruct r'; discriminate|].
        cbn in X. subst x'. exists ([z] ++ tl). rewrite app_assoc. split; [exact P|].
        cbn [it_front it_back it_path_len it_count it_done]. split; [reflexivity|].
        split; [rewrite <- Er; symmetry; apply last_snoc|]. split; [reflexivity|]. lia.
    Qed.

    Lemma Forall2_last {A B} (R : A -> B -> Prop) l m : Forall2 R l m -> forall x y, l <> [] ->
      exists l' m' a b, l = l' ++ [a] /\ m = m' ++ [b] /\ Forall2 R l' m' /\ R a b /\
        last m y = b /\ removelast m = m' /\ last l x = a.
    Proof.
      intros H x y N. destruct (exists_last N) as (l' & a & ->).
      apply Forall2_app_inv_l in H as (m' & mb & H1 & H2 & ->).
      inversion H2 as [|? b ? ? Hab Hn]; subst. inversion Hn; subst.
      exists l', m', a, b. repeat split; auto; try apply last_snoc. apply removelast_last.
    Qed.

    Lemma calls_spec ends : forall r cts it, remaining r it -> Forall2 (at_slot s) r cts ->
      calls cf ends cs it = map (option_map (@Ok context)) (pops ends cts).
    Proof.
      induction ends as [|e ends IH]; intros r cts it R Fa; [reflexivity|].
      cbn [calls pops]. destruct r as [|x r].
      - inversion Fa; subst. destruct e.
        + destruct (next_back_none it R) as [E1 E2]. destruct (iter_next_back cf cs it) as [o it'].
          cbn [fst snd] in *. subst o. cbn [map option_map]. f_equal. apply (IH [] [] it' E2 Fa).
        + destruct (next_none it R) as [E1 E2]. destruct (iter_next cf cs it) as [o it'].
          cbn [fst snd] in *. subst o. cbn [map option_map]. f_equal. apply (IH [] [] it' E2 Fa).
      - destruct cts as [|y cts]; [inversion Fa|]. destruct e.
        + destruct (Forall2_last _ _ _ Fa 0 y ltac:(discriminate))
            as (l' & m' & a & b & El & Em & F1 & F2 & L1 & L2 & L3).
          rewrite L1, L2, El in *.
          destruct (next_back_some l' a it b R F2) as [E1 E2].
          destruct (iter_next_back cf cs it) as [o it']. cbn [fst snd] in *. subst o.
          cbn [map option_map]. f_equal. apply (IH l'); assumption.
        + inversion Fa as [|? ? ? ? Hx Hr]; subst.
          destruct (next_some x r it y R Hx) as [E1 E2].
          destruct (iter_next cf cs it) as [o it']. cbn [fst snd] in *. subst o.
          cbn [map option_map]. f_equal. apply (IH r); assumption.
    Qed.

    Lemma collect_fwd r : forall cts it n, remaining r it -> Forall2 (at_slot s) r cts ->
      length r < n -> iter_collect cf false n cs it = Ok cts.
    Proof.
      induction r as [|x r IH]; intros cts it n R Fa Hn; (destruct n as [|n]; [cbn in Hn; lia|]);
        cbn [iter_collect]; inversion Fa as [|? c ? cts' Hc Fr]; subst.
      - destruct (next_none it R) as [E1 E2]. destruct (iter_next cf cs it) as [o it'].
        cbn [fst snd] in *. subst o. reflexivity.
      - destruct (next_some x r it c R Hc) as [E1 E2]. destruct (iter_next cf cs it) as [o it'].
        cbn [fst snd] in *. subst o. rewrite (IH cts' it' n E2 Fr) by (cbn in Hn; lia). reflexivity.
    Qed.

    Lemma collect_back m : forall r cts it n, length r = m -> remaining r it -> Forall2 (at_slot s) r cts ->
      length r < n -> iter_collect cf true n cs it = Ok (rev cts).
    Proof.
      induction m as [|m IH]; intros r cts it n Em R Fa Hn; (destruct n as [|n]; [lia|]);
        cbn [iter_collect].
      - destruct r; [|discriminate]. inversion Fa; subst.
        destruct (next_back_none it R) as [E1 E2]. destruct (iter_next_back cf cs it) as [o it'].
        cbn [fst snd] in *. subst o. reflexivity.
      - destruct (Forall2_last _ _ _ Fa 0 (hd (ctx_new cf) cts)) as (l' & m' & a & b & -> & -> & F1 & F2 & _).
        { intros ->; discriminate. }
        destruct (next_back_some l' a it b R F2) as [E1 E2].
        destruct (iter_next_back cf cs it) as [o it']. cbn [fst snd] in *. subst o.
        rewrite app_length in Em, Hn. cbn [length] in Em, Hn.
        rewrite (IH l' m' it' n) by (auto; lia). cbn [rbind]. rewrite rev_app_distr. reflexivity.
    Qed.

    (** The two summaries used everywhere else. *)
    Lemma walk_new i cts : lineage s i cts ->
      exists it, iter_new cf i cs = Ok it /\
        (forall ends, calls cf ends cs it = map (option_map (@Ok context)) (pops ends cts)) /\
        (forall n, max_handles cf < n -> iter_collect cf false n cs it = Ok cts) /\
        (forall n, max_handles cf < n -> iter_collect cf true n cs it = Ok (rev cts)) /\
        it_path_len it = length cts.
    Proof.
      intros (l & P & Fa). eexists. split; [apply (iter_new_path i l P)|].
      pose proof (remaining_new i l P) as R.
      pose proof (path_bound _ _ _ P) as B. rewrite (fo_size _ _ F) in B.
      split; [intros; eapply calls_spec; eauto|].
      split; [intros; eapply collect_fwd; eauto; lia|].
      split; [intros; eapply collect_back; eauto; lia|].
      cbn. clear - Fa. induction Fa; cbn; congruence.
    Qed.
  End Good.

  (** ** Arbitrary, possibly corrupted, context arrays *)

  Definition no_crash {A} (r : result A) : Prop := forall k, r <> Crash k.

  Lemma get_no_crash l i : no_crash (iter_get_context cf l i).
  Proof. intros k; unfold iter_get_context. destruct (nth_error l i); [|discriminate]. destruct (_ || _); discriminate. Qed.

  Lemma new_loop_no_crash l n : forall i k, max_handles cf < k + n -> k <= max_handles cf ->
    no_crash (iter_new_loop cf n l i k).
  Proof.
    induction n as [|n IH]; intros i k Hn Hk; [lia|]. cbn [iter_new_loop].
    destruct (iter_get_context cf l i) as [c|e|x] eqn:E; cbn [rbind]; intros y.
    - destruct (Nat.ltb_spec (max_handles cf) (S k)); [discriminate|].
      destruct (Nat.eqb (c_parent c) ROOT); [discriminate|]. apply IH; lia.
    - discriminate.
    - exfalso; exact (get_no_crash l i x E).
  Qed.

  Lemma iter_new_no_crash l i : no_crash (iter_new cf i l).
  Proof.
    intros k. unfold iter_new.
    pose proof (new_loop_no_crash l (S (max_handles cf)) i 0 ltac:(lia) ltac:(lia)) as N.
    destruct (iter_new_loop _ _ l i 0) as [x|e|y]; cbn [rbind]; try discriminate.
    exfalso; exact (N y eq_refl).
  Qed.

  (** [climbs l i n]: the root is reached from slot [i] in [n] steps or fewer. *)
  Inductive climbs (l : list context) : nat -> nat -> Prop :=
  | climbs_root i c n : iter_get_context cf l i = Ok c -> c_parent c = ROOT -> climbs l i (S n)
  | climbs_step i c n : iter_get_context cf l i = Ok c -> c_parent c <> ROOT ->
      climbs l (c_parent c) n -> climbs l i (S n).

  Lemma new_loop_climbs l n : forall i k r, iter_new_loop cf n l i k = Ok r ->
    climbs l i n /\ k < snd r <= max_handles cf /\ climbs l i (snd r - k).
  Proof.
    induction n as [|n IH]; intros i k r H; [discriminate|]. cbn [iter_new_loop] in H.
    destruct (iter_get_context cf l i) as [c|e|x] eqn:E; cbn [rbind] in H; try discriminate.
    destruct (Nat.ltb_spec (max_handles cf) (S k)); [discriminate|].
    destruct (Nat.eqb_spec (c_parent c) ROOT).
    - injection H as <-. cbn [snd]. split; [eapply climbs_root; eauto|]. split; [lia|].
      replace (S k - k) with 1 by lia. eapply climbs_root; eauto.
    - destruct (IH _ _ _ H) as (A & B & D). split; [eapply climbs_step; eauto|]. split; [lia|].
      replace (snd r - k) with (S (snd r - S k)) by lia. eapply climbs_step; eauto.
  Qed.

  Lemma climbs_more l i n : climbs l i n -> forall m, n <= m -> climbs l i m.
  Proof.
    induction 1; intros [|m] Hm; try lia; [eapply climbs_root; eauto|eapply climbs_step; eauto].
    apply IHclimbs; lia.
  Qed.

  Lemma on_path_no_crash l i n : climbs l i n -> forall t, no_crash (is_node_on_path cf n l i t).
  Proof.
    induction 1 as [i c n E P|i c n E P C IH]; intros t k; cbn [is_node_on_path];
      destruct (Nat.eqb i t); try discriminate; rewrite E; cbn [rbind].
    - rewrite P, Nat.eqb_refl. discriminate.
    - destruct (Nat.eqb_spec (c_parent c) ROOT); [discriminate|]. apply IH.
  Qed.

  Lemma find_no_crash l i cands : climbs l i (fuel cf) -> no_crash (find_on_path cf l i cands).
  Proof.
    intros C. induction cands as [|t cands IH]; intros k; cbn [find_on_path]; [discriminate|].
    destruct (is_node_on_path cf (fuel cf) l i t) as [b|e|x] eqn:E; cbn [rbind].
    - destruct b; [discriminate|apply IH].
    - discriminate.
    - exfalso; exact (on_path_no_crash l i _ C t x E).
  Qed.

  (** The front end of an unfinished iterator can always reach a root. *)
  Definition sound (l : list context) (it : ctr_iter) : Prop :=
    (it_done it = false -> climbs l (it_front it) (fuel cf)) /\ it_path_len it <= max_handles cf.

  Lemma sound_new l i it : iter_new cf i l = Ok it -> sound l it.
  Proof.
    unfold iter_new. intros H. destruct (iter_new_loop cf (S (max_handles cf)) l i 0) as [r|e|k] eqn:E; try discriminate.
    injection H as <-. destruct (new_loop_climbs _ _ _ _ _ E) as (A & B & _). split; cbn.
    - intros _. eapply climbs_more; [exact A|]. destruct Hcf as (_ & _ & Hfu). lia.
    - lia.
  Qed.

  Lemma sound_next l it : sound l it ->
    sound l (snd (iter_next cf l it)) /\
    forall r, fst (iter_next cf l it) = Some r -> no_crash r /\
      ((exists c, r = Ok c) -> it_count (snd (iter_next cf l it)) = S (it_count it) /\
          it_count it < it_path_len it /\ it_path_len (snd (iter_next cf l it)) = it_path_len it).
  Proof.
    intros [S1 S2]. unfold iter_next. destruct (it_done it) eqn:D.
    { cbn. split; [split; [rewrite D|]; auto|]. discriminate. }
    destruct (Nat.leb_spec (it_path_len it) (it_count it)).
    { cbn. split; [split; [discriminate|exact S2]|]. discriminate. }
    destruct (Nat.leb_spec (max_handles cf) (it_count it)).
    { cbn. split; [split; [discriminate|exact S2]|]. intros r E; injection E as <-.
      split; [intros k; discriminate|]. intros (c & X); discriminate. }
    destruct (iter_get_context cf l (it_front it)) as [c|e|k] eqn:E.
    - cbn. split.
      + split; [|exact S2]. cbn. intros Hr. apply Nat.eqb_neq in Hr. specialize (S1 eq_refl).
        inversion S1 as [? ? ? E' P'|? ? ? E' P' C']; subst; rewrite E in E'; injection E' as <-; [congruence|].
        eapply climbs_more; [exact C'|lia].
      + intros r Er; injection Er as <-. split; [intros k; discriminate|]. intros _. cbn. auto.
    - cbn. split; [split; [discriminate|exact S2]|]. intros r Er; injection Er as <-.
      split; [intros k; discriminate|]. intros (c & X); discriminate.
    - exfalso; exact (get_no_crash _ _ _ E).
  Qed.

  Lemma sound_next_back l it : sound l it ->
    sound l (snd (iter_next_back cf l it)) /\
    forall r, fst (iter_next_back cf l it) = Some r -> no_crash r /\
      ((exists c, r = Ok c) -> it_count (snd (iter_next_back cf l it)) = S (it_count it) /\
          it_count it < it_path_len it /\ it_path_len (snd (iter_next_back cf l it)) = it_path_len it).
  Proof.
    intros [S1 S2]. unfold iter_next_back. destruct (it_done it) eqn:D.
    { cbn. split; [split; [rewrite D|]; auto|]. discriminate. }
    destruct (Nat.leb_spec (it_path_len it) (it_count it)).
    { cbn. split; [split; [discriminate|exact S2]|]. discriminate. }
    destruct (Nat.leb_spec (max_handles cf) (it_count it)).
    { cbn. split; [split; [discriminate|exact S2]|]. intros r E; injection E as <-.
      split; [intros k; discriminate|]. intros (c & X); discriminate. }
    destruct (iter_get_context cf l (it_back it)) as [c|e|k] eqn:E.
    2:{ cbn. split; [split; [discriminate|exact S2]|]. intros r Er; injection Er as <-.
        split; [intros k; discriminate|]. intros (c & X); discriminate. }
    2:{ exfalso; exact (get_no_crash _ _ _ E). }
    destruct (Nat.eqb (it_front it) (it_back it)).
    { cbn. split; [split; [discriminate|exact S2]|]. intros r Er; injection Er as <-.
      split; [intros k; discriminate|]. intros _. cbn. auto. }
    pose proof (find_no_crash l (it_front it) (children_iter cf (c_children c)) (S1 eq_refl)) as N.
    destruct (find_on_path cf l (it_front it) (children_iter cf (c_children c))) as [[t|]|e|k].
    - cbn. split; [split; [intros _; exact (S1 eq_refl)|exact S2]|].
      intros r Er; injection Er as <-. split; [intros k; discriminate|]. intros _. cbn. auto.
    - cbn [fst snd]. split; [split; [intros _; exact (S1 eq_refl)|exact S2]|].
      intros r Er; injection Er as <-. split; [intros k; discriminate|]. intros (x & X); discriminate.
    - cbn. split; [split; [discriminate|exact S2]|]. intros r Er; injection Er as <-.
      split; [intros k; discriminate|]. intros (x & X); discriminate.
    - exfalso; exact (N k eq_refl).
  Qed.

  Lemma calls_no_crash l ends : forall it, sound l it ->
    forall r, In (Some r) (calls cf ends l it) -> no_crash r.
  Proof.
    induction ends as [|e ends IH]; intros it S r H; [destruct H|].
    cbn [calls] in H. destruct e.
    - destruct (sound_next_back l it S) as [S' N]. destruct (iter_next_back cf l it) as [o it'].
      cbn [fst snd] in *. destruct H as [->|H]; [apply (N r eq_refl)|]. eapply IH; eauto.
    - destruct (sound_next l it S) as [S' N]. destruct (iter_next cf l it) as [o it'].
      cbn [fst snd] in *. destruct H as [->|H]; [apply (N r eq_refl)|]. eapply IH; eauto.
  Qed.

  Lemma collect_no_crash l back n : forall it, sound l it ->
    max_handles cf < it_count it + n -> it_count it <= max_handles cf ->
    no_crash (iter_collect cf back n l it).
  Proof.
    induction n as [|n IH]; intros it S Hn Hc k; [lia|]. cbn [iter_collect].
    assert (G : forall o it', (o, it') = (if back then iter_next_back cf l it else iter_next cf l it) ->
      sound l it' /\ forall r, o = Some r -> no_crash r /\
        ((exists c, r = Ok c) -> it_count it' = Datatypes.S (it_count it) /\ it_count it < it_path_len it /\
            it_path_len it' = it_path_len it)).
    { intros o it' E. destruct back.
      - pose proof (sound_next_back l it S) as X. rewrite <- E in X. exact X.
      - pose proof (sound_next l it S) as X. rewrite <- E in X. exact X. }
    destruct (if back then iter_next_back cf l it else iter_next cf l it) as [o it'].
    destruct (G o it' eq_refl) as [S' N]. destruct o as [[c|e|x]|]; try discriminate.
    - destruct (N _ eq_refl) as [_ M]. destruct (M (ex_intro _ c eq_refl)) as (M1 & M2 & M3).
      destruct S as [_ SL].
      destruct (iter_collect cf back n l it') as [y|e|x] eqn:E; cbn [rbind]; try discriminate.
      exfalso; refine (IH it' S' _ _ x E); lia.
    - exfalso. destruct (N _ eq_refl) as [M _]. exact (M x eq_refl).
  Qed.
End Walk.
