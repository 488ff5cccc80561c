(** Validator.v -- what the state validator accepts: specification and proofs. *)
From Verif Require Import Base Errors Types StateOps Validation Lib Spec Exec Forest Steps.
Local Open Scope nat_scope.

(** ** Specification *)

(** What the Rust types guarantee of any state, however corrupted: the array of
    contexts has MAX_HANDLES entries and child bitmaps have 64 bits. *)
Definition representable (cf : config) (s : state) : Prop :=
  length (st_contexts s) = max_handles cf /\
  forall i c, at_slot s i c -> (c_children c < 2 ^ 64)%N.

(** In locality [loc] a context with the default handle is alone. *)
Definition lone_default (s : state) (loc : N) : Prop :=
  forall i j c d, at_slot s i c -> at_slot s j d -> c_state c = Active -> c_state d = Active ->
    c_locality c = loc -> c_locality d = loc -> c_handle c = repeat 0%N 16 -> i = j.

Record acceptable (cf : config) (s : state) : Prop := {
  ac_marker : st_marker s = 0x44504553%N;
  ac_version : st_version s = 1%N;
  ac_forest : forest cf s;
  (** unsupported features are not in use *)
  ac_features : forall i c, at_slot s i c ->
    (c_type c = Simulation -> supports s SIMULATION) /\
    (c_dice c = true -> supports s INTERNAL_DICE) /\
    (c_info c = true -> supports s INTERNAL_INFO) /\
    (c_x509 c = true -> c_parent c <> ROOT -> supports s X509);
  (** free slots are clean *)
  ac_free : forall i c, at_slot s i c -> c_state c = Inactive ->
    c_children c = 0%N /\
    c_tci c = mkTci 0 (repeat 0%N (tci_size cf)) (repeat 0%N (tci_size cf)) 0 0 /\
    c_dice c = false /\ c_x509 c = false /\ c_info c = false;
  ac_locality : forall i c, at_slot s i c -> tci_locality (c_tci c) = c_locality c;
  ac_initialized : forall i c, at_slot s i c -> c_state c = Active -> c_type c = Normal -> st_init s = true;
  (** a tree has one type *)
  ac_one_type : forall i c p, at_slot s i c -> live c -> at_slot s (c_parent c) p -> c_type c = c_type p;
  (** there is at most one normal tree *)
  ac_one_normal : forall i j c d, at_slot s i c -> at_slot s j d -> live c -> live d ->
    c_parent c = ROOT -> c_parent d = ROOT -> c_type c = Normal -> c_type d = Normal -> i = j;
  ac_default : forall loc, lone_default s loc
}.

(** What each error of the validator claims about the state.  (Four errors are
    never reported: the closed enumerations rule out bad discriminants, and the
    link checks rule out a child of two parents.) *)
Definition defect (cf : config) (s : state) (e : validation_error) : Prop :=
  match e with
  | InvalidMarker => st_marker s <> 0x44504553%N
  | VersionMismatch => st_version s <> 1%N
  | SimulationNotSupported => exists i c, at_slot s i c /\ c_type c = Simulation /\ ~ supports s SIMULATION
  | InternalDiceNotSupported => exists i c, at_slot s i c /\ c_dice c = true /\ ~ supports s INTERNAL_DICE
  | InternalInfoNotSupported => exists i c, at_slot s i c /\ c_info c = true /\ ~ supports s INTERNAL_INFO
  | AllowX509NotSupported =>
      exists i c, at_slot s i c /\ c_x509 c = true /\ c_parent c <> ROOT /\ ~ supports s X509
  | InactiveContextInvalidParent => exists i c, at_slot s i c /\ c_state c = Inactive /\ c_parent c <> ROOT
  | InactiveContextWithChildren => exists i c, at_slot s i c /\ c_state c = Inactive /\ c_children c <> 0%N
  | InactiveContextWithMeasurement =>
      exists i c, at_slot s i c /\ c_state c = Inactive /\
        c_tci c <> mkTci 0 (repeat 0%N (tci_size cf)) (repeat 0%N (tci_size cf)) 0 0
  | InactiveContextWithFlagSet =>
      exists i c, at_slot s i c /\ c_state c = Inactive /\ (c_dice c = true \/ c_x509 c = true \/ c_info c = true)
  | DpeNotMarkedInitialized =>
      exists i c, at_slot s i c /\ c_state c = Active /\ c_type c = Normal /\ st_init s = false
  | ParentDoesNotExist =>
      exists i c, at_slot s i c /\ live c /\ c_parent c <> ROOT /\ forall p, ~ at_slot s (c_parent c) p
  | InactiveParent =>
      exists i c p, at_slot s i c /\ live c /\ c_parent c <> ROOT /\ at_slot s (c_parent c) p /\ c_state p = Inactive
  | ChildDoesNotExist =>
      exists i c j, at_slot s i c /\ live c /\ has_bit (c_children c) j /\ forall d, ~ at_slot s j d
  | InactiveChild =>
      exists i c j d, at_slot s i c /\ live c /\ has_bit (c_children c) j /\ at_slot s j d /\ c_state d = Inactive
  | ParentChildLinksCorrupted =>
      (exists i c p, at_slot s i c /\ live c /\ c_parent c <> ROOT /\ at_slot s (c_parent c) p /\
                     live p /\ ~ has_bit (c_children p) i) \/
      (exists i c j d, at_slot s i c /\ live c /\ has_bit (c_children c) j /\ at_slot s j d /\
                       live d /\ c_parent d <> i)
  | DanglingRetiredContext =>
      exists i c, at_slot s i c /\ c_state c = Retired /\ forall j, ~ has_bit (c_children c) j
  | LocalityMismatch => exists i c, at_slot s i c /\ tci_locality (c_tci c) <> c_locality c
  | MultipleDefaultContexts =>
      exists i j c d, at_slot s i c /\ at_slot s j d /\ i <> j /\ c_state c = Active /\ c_state d = Active /\
        c_locality c = c_locality d /\ c_handle c = repeat 0%N 16 /\ c_handle d = repeat 0%N 16
  | MixedContextLocality =>
      exists i j c d, at_slot s i c /\ at_slot s j d /\ c_state c = Active /\ c_state d = Active /\
        c_locality c = c_locality d /\ c_handle c = repeat 0%N 16 /\ c_handle d <> repeat 0%N 16
  | MixedContextTypeConnectedComponents =>
      exists i c p, at_slot s i c /\ live c /\ at_slot s (c_parent c) p /\ c_type c <> c_type p
  | MultipleNormalConnectedComponents =>
      exists i j c d, at_slot s i c /\ at_slot s j d /\ i <> j /\ live c /\ live d /\
        c_parent c = ROOT /\ c_parent d = ROOT /\ c_type c = Normal /\ c_type d = Normal
  | CyclesInTree => exists i, live_at s i /\ forall l, ~ path s i l
  | BadContextState | BadContextType | AllowCaNotSupported | ChildWithMultipleParents => False
  end.

(** ** Proofs *)

(** Lists. *)
Lemma all_ok_iff {A} (f : A -> result unit) l :
  all_ok f l = Ok tt <-> forall x, In x l -> f x = Ok tt.
Proof.
  induction l as [|a l IH]; cbn [all_ok]; [split; [intros _ x []|reflexivity]|].
  destruct (f a) as [[]|e|k] eqn:E; cbn [rbind].
  - rewrite IH. split; [intros H x [<-|Hx]; auto|intros H x Hx; apply H; right; exact Hx].
  - split; [discriminate|]. intros H. specialize (H a (or_introl eq_refl)). congruence.
  - split; [discriminate|]. intros H. specialize (H a (or_introl eq_refl)). congruence.
Qed.
Lemma all_ok_cases {A} (f : A -> result unit) l :
  all_ok f l = Ok tt \/ exists x, In x l /\ all_ok f l = f x /\ f x <> Ok tt.
Proof.
  induction l as [|a l IH]; cbn [all_ok]; [left; reflexivity|].
  destruct (f a) as [[]|e|k] eqn:E; cbn [rbind].
  - destruct IH as [IH|(x & H1 & H2 & H3)]; [left; exact IH|right; exists x; auto with datatypes].
  - right. exists a. rewrite E. split; [left; reflexivity|]. split; [reflexivity|discriminate].
  - right. exists a. rewrite E. split; [left; reflexivity|]. split; [reflexivity|discriminate].
Qed.

Lemma filter_at_most_one {A} (f : A -> bool) l :
  length (filter f l) <= 1 <->
  forall i j x y, nth_error l i = Some x -> nth_error l j = Some y -> f x = true -> f y = true -> i = j.
Proof.
  assert (Z : forall l : list A, filter f l = [] <-> forall i x, nth_error l i = Some x -> f x = false).
  { clear l. induction l as [|a l IH]; cbn [filter].
    - split; [intros _ [|i] x H; discriminate|reflexivity].
    - destruct (f a) eqn:E.
      + split; [discriminate|]. intros H. specialize (H 0 a eq_refl). congruence.
      + rewrite IH. split; intros H; [intros [|i] x Hx; cbn in Hx; [congruence|eauto]|intros i x Hx; exact (H (S i) x Hx)]. }
  induction l as [|a l IH]; cbn [filter].
  - split; [intros _ [|i] j x y H; discriminate|cbn; lia].
  - destruct (f a) eqn:E.
    + cbn [length]. split.
      * intros L. assert (N : filter f l = []) by (destruct (filter f l); [reflexivity|cbn in L; lia]).
        rewrite Z in N. intros [|i] [|j] x y Hx Hy Fx Fy; cbn in Hx, Hy; try reflexivity.
        -- rewrite (N _ _ Hy) in Fy. discriminate.
        -- rewrite (N _ _ Hx) in Fx. discriminate.
        -- rewrite (N _ _ Hx) in Fx. discriminate.
      * intros H. replace (filter f l) with (@nil A); [cbn; lia|]. symmetry. apply Z.
        intros i x Hx. destruct (f x) eqn:Fx; [|reflexivity]. specialize (H 0 (S i) a x eq_refl Hx E Fx). discriminate.
    + rewrite IH. split; intros H.
      * intros [|i] [|j] x y Hx Hy Fx Fy; cbn in Hx, Hy; try reflexivity; try congruence. f_equal. eauto.
      * intros i j x y Hx Hy Fx Fy. specialize (H (S i) (S j) x y Hx Hy Fx Fy). lia.
Qed.

Lemma classic_two {A} (f : A -> bool) l : 2 <= length (filter f l) ->
  exists i j x y, nth_error l i = Some x /\ nth_error l j = Some y /\ i <> j /\ f x = true /\ f y = true.
Proof.
  induction l as [|a l IH]; cbn [filter]; [cbn; lia|]. destruct (f a) eqn:E.
  - cbn [length]. intros L. destruct (filter f l) as [|y k] eqn:EF; [cbn in L; lia|].
    assert (I : In y (filter f l)) by (rewrite EF; left; reflexivity). apply filter_In in I. destruct I as [I Fy].
    apply In_nth_error in I. destruct I as [j Hj]. exists 0, (S j), a, y. repeat split; auto.
  - intros L. destruct (IH L) as (i & j & x & y & H1 & H2 & H3 & H4 & H5). exists (S i), (S j), x, y. repeat split; auto.
Qed.

Section Proofs.
  Variable cf : config.
  Hypothesis Hcf : config_ok cf.


  (** *** One slot *)
  Lemma check_support_iff s c : check_support (st_support s) c = Ok tt <->
    (c_type c = Simulation -> supports s SIMULATION) /\
    (c_dice c = true -> supports s INTERNAL_DICE) /\
    (c_info c = true -> supports s INTERNAL_INFO) /\
    (c_x509 c = true -> c_parent c <> ROOT -> supports s X509).
  Proof.
    unfold check_support, supports, sup_simulation, sup_internal_dice, sup_internal_info, sup_x509.
    rewrite !contains_bit.
    change (N.testbit (st_support s) 31) with (N.testbit (st_support s) SIMULATION).
    change (N.testbit (st_support s) 21) with (N.testbit (st_support s) INTERNAL_DICE).
    change (N.testbit (st_support s) 22) with (N.testbit (st_support s) INTERNAL_INFO).
    change (N.testbit (st_support s) 26) with (N.testbit (st_support s) X509).
    destruct (Nat.eqb_spec (c_parent c) ROOT) as [R|R], (c_type c), (c_dice c), (c_info c), (c_x509 c),
      (N.testbit (st_support s) SIMULATION), (N.testbit (st_support s) INTERNAL_DICE),
      (N.testbit (st_support s) INTERNAL_INFO), (N.testbit (st_support s) X509); cbn;
      (split; [try discriminate; intros _; repeat split; try congruence|
               intros (A & B & C & D); try reflexivity; exfalso;
               first [specialize (A eq_refl); discriminate|specialize (B eq_refl); discriminate
                     |specialize (C eq_refl); discriminate|specialize (D eq_refl R); discriminate]]).
  Qed.

  Lemma inactive_iff c : validate_inactive_context cf c = Ok tt <->
    c_parent c = ROOT /\ c_children c = 0%N /\
    c_tci c = mkTci 0 (repeat 0%N (tci_size cf)) (repeat 0%N (tci_size cf)) 0 0 /\
    c_dice c = false /\ c_x509 c = false /\ c_info c = false.
  Proof.
    unfold validate_inactive_context, has_children, children_empty.
    destruct (Nat.eqb_spec (c_parent c) ROOT) as [R|R]; cbn [negb]; [|split; [discriminate|tauto]].
    destruct (N.eqb_spec (c_children c) 0) as [K|K]; cbn [negb]; [|split; [discriminate|tauto]].
    destruct (tci_eqb (c_tci c) (tci_new cf)) eqn:T; cbn [negb].
    - apply tci_eqb_eq in T. rewrite T. destruct (c_dice c), (c_x509 c), (c_info c); cbn; split; try discriminate;
        try (intros (_ & _ & _ & X & Y & Z); discriminate); auto 10.
    - split; [discriminate|]. intros (_ & _ & X & _). exfalso.
      assert (tci_eqb (c_tci c) (tci_new cf) = true); [|congruence]. apply tci_eqb_eq. exact X.
  Qed.

  Definition links (s : state) (i : nat) (c : context) : Prop :=
    (c_parent c <> ROOT -> exists p, at_slot s (c_parent c) p /\ live p /\ has_bit (c_children p) i) /\
    (forall j, has_bit (c_children c) j -> child_of s i j).

  Lemma links_iff s i c : representable cf s -> at_slot s i c ->
    check_children_and_parent cf s i c = Ok tt <-> links s i c.
  Proof.
    intros [Len Bits] Hc. unfold check_children_and_parent, links.
    pose proof (at_lt _ _ _ Hc) as Lt. rewrite Len in Lt.
    match goal with |- rbind ?a ?f = _ <-> _ /\ _ => set (A := a) end.
    assert (HA : A = Ok tt <-> (c_parent c <> ROOT -> exists p, at_slot s (c_parent c) p /\ live p /\ has_bit (c_children p) i)).
    { unfold A. destruct (Nat.eqb_spec (c_parent c) ROOT) as [R|R]; cbn [negb andb]; rewrite ?andb_false_r, ?andb_true_r.
      - split; [intros _ X; contradiction|reflexivity].
      - destruct (Nat.leb_spec (max_handles cf) (c_parent c)) as [G|G].
        + split; [discriminate|]. intros H. destruct (H R) as (p & Hp & _). apply at_lt in Hp. lia.
        + unfold get_ctx. destruct (nth_error (st_contexts s) (c_parent c)) as [p|] eqn:Ep.
          2:{ split; [discriminate|]. intros H. destruct (H R) as (p & Hp & _). unfold at_slot in Hp. congruence. }
          destruct (ctx_state_eqb (c_state p) Inactive) eqn:I.
          { apply ctx_state_eqb_eq in I. split; [discriminate|]. intros H. destruct (H R) as (q & Hq & Lq & _).
            unfold at_slot in Hq. rewrite Ep in Hq. injection Hq as <-. contradiction. }
          apply ctx_state_eqb_neq in I. rewrite has_child_eq by exact Hcf.
          destruct (Nat.ltb_spec i (max_handles cf)) as [_|X]; [|lia]. cbn [andb].
          destruct (mem (c_children p) i) eqn:M; cbn [negb].
          * split; [intros _ _|reflexivity]. exists p. auto.
          * split; [discriminate|]. intros H. destruct (H R) as (q & Hq & _ & Bq).
            unfold at_slot in Hq. rewrite Ep in Hq. injection Hq as <-. unfold has_bit in Bq. unfold mem in M. congruence. }
    match goal with |- rbind A ?f = _ <-> _ => set (F := f) end.
    assert (HF : F tt = Ok tt <-> forall j, has_bit (c_children c) j -> child_of s i j).
    { unfold F. rewrite all_ok_iff. rewrite flags_iter_spec by lia.
      assert (In64 : forall j, In j (filter (mem (c_children c)) (seq 0 64)) <-> has_bit (c_children c) j).
      { intros j. rewrite filter_In, in_seq. split; [intros [_ H]; exact H|]. intros H. split; [|exact H].
        split; [lia|]. destruct (Nat.lt_ge_cases j (0 + 64)) as [L|L]; [exact L|].
        exfalso. unfold has_bit in H. specialize (Bits _ _ Hc).
        destruct (N.eq_dec (c_children c) 0) as [Z|Z]; [rewrite Z, N.bits_0 in H; discriminate|].
        rewrite N.bits_above_log2 in H; [discriminate|]. apply N.log2_lt_pow2; [lia|].
        eapply N.lt_le_trans; [exact Bits|]. apply N.pow_le_mono_r; lia. }
      split.
      - intros H j Hj. specialize (H j (proj2 (In64 j) Hj)). cbv beta in H. unfold get_ctx in H.
        destruct (nth_error (st_contexts s) j) as [d|] eqn:Ed; [|discriminate].
        destruct (ctx_state_eqb (c_state d) Inactive) eqn:I; [discriminate|]. apply ctx_state_eqb_neq in I.
        destruct (Nat.eqb_spec (c_parent d) i) as [E|E]; [|discriminate]. exists d. auto.
      - intros H j Hj. apply In64 in Hj. destruct (H j Hj) as (d & Hd & Ld & Pd). cbv beta. unfold get_ctx.
        unfold at_slot in Hd. rewrite Hd. destruct (ctx_state_eqb (c_state d) Inactive) eqn:I.
        { apply ctx_state_eqb_eq in I. contradiction. }
        rewrite Pd, Nat.eqb_refl. reflexivity. }
    destruct A as [[]|e|k] eqn:EA; cbn [rbind].
    - rewrite HF. tauto.
    - split; [discriminate|]. intros [X _]. apply HA in X. discriminate.
    - split; [discriminate|]. intros [X _]. apply HA in X. discriminate.
  Qed.

  (** Everything about single slots and single links. *)
  Record locally_ok (s : state) : Prop := {
    lo_features : forall i c, at_slot s i c ->
      (c_type c = Simulation -> supports s SIMULATION) /\
      (c_dice c = true -> supports s INTERNAL_DICE) /\
      (c_info c = true -> supports s INTERNAL_INFO) /\
      (c_x509 c = true -> c_parent c <> ROOT -> supports s X509);
    lo_free : forall i c, at_slot s i c -> c_state c = Inactive ->
      c_parent c = ROOT /\ c_children c = 0%N /\
      c_tci c = mkTci 0 (repeat 0%N (tci_size cf)) (repeat 0%N (tci_size cf)) 0 0 /\
      c_dice c = false /\ c_x509 c = false /\ c_info c = false;
    lo_locality : forall i c, at_slot s i c -> tci_locality (c_tci c) = c_locality c;
    lo_initialized : forall i c, at_slot s i c -> c_state c = Active -> c_type c = Normal -> st_init s = true;
    lo_links : forall i c, at_slot s i c -> live c -> links s i c;
    lo_retired : forall i c, at_slot s i c -> c_state c = Retired -> exists j, has_bit (c_children c) j
  }.

  Lemma validate_context_iff s i c : representable cf s -> at_slot s i c ->
    validate_context cf s (i, c) = Ok tt <->
    ((c_type c = Simulation -> supports s SIMULATION) /\
     (c_dice c = true -> supports s INTERNAL_DICE) /\
     (c_info c = true -> supports s INTERNAL_INFO) /\
     (c_x509 c = true -> c_parent c <> ROOT -> supports s X509)) /\
    (c_state c = Inactive -> c_parent c = ROOT /\ c_children c = 0%N /\
       c_tci c = mkTci 0 (repeat 0%N (tci_size cf)) (repeat 0%N (tci_size cf)) 0 0 /\
       c_dice c = false /\ c_x509 c = false /\ c_info c = false) /\
    tci_locality (c_tci c) = c_locality c /\
    (c_state c = Active -> c_type c = Normal -> st_init s = true) /\
    (live c -> links s i c) /\
    (c_state c = Retired -> exists j, has_bit (c_children c) j).
  Proof.
    intros R Hc. unfold validate_context.
    pose proof (check_support_iff s c) as HS.
    destruct (check_support (st_support s) c) as [[]|e|k]; cbn [rbind];
      [|split; [discriminate|intros [X _]; apply HS in X; discriminate]
       |split; [discriminate|intros [X _]; apply HS in X; discriminate]].
    pose proof (proj1 HS eq_refl) as HS'. clear HS.
    assert (HL : forall a : result unit,
      rbind a (fun _ => if negb (N.eqb (c_locality c) (tci_locality (c_tci c))) then verr LocalityMismatch else Ok tt) = Ok tt
      <-> a = Ok tt /\ tci_locality (c_tci c) = c_locality c).
    { intros [[]|e|k]; cbn [rbind]; [|split; [discriminate|intros [X _]; discriminate]..].
      destruct (N.eqb_spec (c_locality c) (tci_locality (c_tci c))) as [E|E]; cbn [negb].
      - split; [intros _; split; [reflexivity|symmetry; exact E]|reflexivity].
      - split; [discriminate|]. intros [_ X]. congruence. }
    rewrite HL. clear HL. unfold live. destruct (c_state c) eqn:St.
    - rewrite inactive_iff. split; [intros [A B]|intros (_ & A & B & _)].
      + repeat (split; [tauto|]). split; [intros X; discriminate|]. split; [intros X; contradiction|discriminate].
      + split; [apply A; reflexivity|exact B].
    - destruct (ctx_type_eqb (c_type c) Normal) eqn:T.
      + apply ctx_type_eqb_eq in T. destruct (st_init s) eqn:I; cbn [andb negb].
        * rewrite links_iff by assumption. split; [intros [A B]|intros (_ & _ & B & _ & A & _)].
          -- split; [exact HS'|]. split; [discriminate|]. split; [exact B|]. split; [auto|]. split; [auto|discriminate].
          -- split; [apply A; discriminate|exact B].
        * split; [intros [X _]; discriminate|]. intros (_ & _ & _ & X & _). specialize (X eq_refl T). discriminate.
      + apply ctx_type_eqb_neq in T. cbn [andb].
        rewrite links_iff by assumption. split; [intros [A B]|intros (_ & _ & B & _ & A & _)].
        * split; [exact HS'|]. split; [discriminate|]. split; [exact B|]. split; [intros _ X; contradiction|]. split; [auto|discriminate].
        * split; [apply A; discriminate|exact B].
    - pose proof (links_iff s i c R Hc) as HK.
      destruct (check_children_and_parent cf s i c) as [[]|e|k]; cbn [rbind].
      2,3: split; [intros [X _]; discriminate|intros (_ & _ & _ & _ & X & _); specialize (X ltac:(discriminate)); apply HK in X; discriminate].
      pose proof (proj1 HK eq_refl) as HK'. clear HK.
      destruct (children_iter cf (c_children c)) as [|j l] eqn:EC; cbn [length Nat.eqb].
      + split; [intros [X _]; discriminate|]. intros (_ & _ & _ & _ & _ & X). destruct (X eq_refl) as (j & Hj).
        exfalso. destruct (proj2 HK' j Hj) as (d & Hd & _). apply at_lt in Hd.
        assert (In j (children_iter cf (c_children c))); [|rewrite EC in H; destruct H].
        apply in_children_iter; [exact Hcf|]. split; [|exact Hj]. destruct R as [Len _]. lia.
      + split; [intros [_ B]|intros (_ & _ & B & _); split; [reflexivity|exact B]].
        split; [exact HS'|]. split; [discriminate|]. split; [exact B|]. split; [discriminate|]. split; [auto|].
        intros _. exists j. assert (X : In j (children_iter cf (c_children c))) by (rewrite EC; left; reflexivity).
        apply in_children_iter in X; [|exact Hcf]. exact (proj2 X).
  Qed.

  (** *** One locality *)
  Definition defaults (loc : N) (c : context) : bool := active_in loc c && handle_is_default (c_handle c).
  Definition others (loc : N) (c : context) : bool := active_in loc c && negb (handle_is_default (c_handle c)).

  Lemma locality_counts_iff loc : forall l d k, d <= 1 -> ~ (0 < d /\ 0 < k) ->
    locality_counts loc l d k = Ok tt <->
    d + length (filter (defaults loc) l) <= 1 /\
    ~ (0 < d + length (filter (defaults loc) l) /\ 0 < k + length (filter (others loc) l)).
  Proof.
    induction l as [|c l IH]; intros d k H1 H2; cbn [locality_counts].
    - cbn [filter length]. split; [intros _; lia|reflexivity].
    - assert (FD : length (filter (defaults loc) (c :: l)) =
        (if defaults loc c then 1 else 0) + length (filter (defaults loc) l)) by (cbn [filter]; destruct (defaults loc c); reflexivity).
      assert (FO : length (filter (others loc) (c :: l)) =
        (if others loc c then 1 else 0) + length (filter (others loc) l)) by (cbn [filter]; destruct (others loc c); reflexivity).
      rewrite FD, FO. clear FD FO. unfold defaults at 1 3, others at 1. destruct (active_in loc c), (handle_is_default (c_handle c)); cbn [andb negb].
      + destruct (Nat.ltb_spec 1 (S d)) as [X|X]; [split; [discriminate|lia]|].
        destruct (Nat.ltb_spec 0 (S d)) as [_|Y]; [|lia].
        destruct (Nat.ltb_spec 0 k) as [Z|Z]; cbn [andb]; [split; [discriminate|lia]|].
        rewrite IH by lia. lia.
      + destruct (Nat.ltb_spec 1 d) as [X|X]; [lia|].
        destruct (Nat.ltb_spec 0 d) as [Y|Y]; destruct (Nat.ltb_spec 0 (S k)) as [Z|Z]; cbn [andb]; try lia.
        * split; [discriminate|lia].
        * rewrite IH by lia. lia.
      + destruct (Nat.ltb_spec 1 d) as [X|X]; [lia|].
        destruct (Nat.ltb_spec 0 d) as [Y|Y]; destruct (Nat.ltb_spec 0 k) as [Z|Z]; cbn [andb]; try lia; rewrite IH by lia; lia.
      + destruct (Nat.ltb_spec 1 d) as [X|X]; [lia|].
        destruct (Nat.ltb_spec 0 d) as [Y|Y]; destruct (Nat.ltb_spec 0 k) as [Z|Z]; cbn [andb]; try lia; rewrite IH by lia; lia.
  Qed.

  Lemma locality_iff s loc :
    locality_counts loc (st_contexts s) 0 0 = Ok tt <-> lone_default s loc.
  Proof.
    rewrite locality_counts_iff by lia. cbn [plus].
    assert (AD : forall c, defaults loc c = true <-> c_state c = Active /\ c_locality c = loc /\ c_handle c = repeat 0%N 16).
    { intros c. unfold defaults. rewrite andb_true_iff, active_in_iff, handle_is_default_eq. tauto. }
    assert (AO : forall c, others loc c = true <-> c_state c = Active /\ c_locality c = loc /\ c_handle c <> repeat 0%N 16).
    { intros c. unfold others. rewrite andb_true_iff, active_in_iff, negb_true_iff, handle_is_default_neq. tauto. }
    split.
    - intros [D M] i j c d Hc Hd Sc Sd Lc Ld Dc. assert (Bc : defaults loc c = true) by (apply AD; auto).
      destruct (handle_is_default (c_handle d)) eqn:Hh.
      + apply handle_is_default_eq in Hh. assert (Bd : defaults loc d = true) by (apply AD; auto).
        exact (proj1 (filter_at_most_one _ _) D i j c d Hc Hd Bc Bd).
      + apply handle_is_default_neq in Hh. assert (Bd : others loc d = true) by (apply AO; auto). exfalso. apply M. split.
        * assert (X : In c (filter (defaults loc) (st_contexts s))) by (apply filter_In; split; [eapply nth_error_In; exact Hc|exact Bc]).
          destruct (filter (defaults loc) (st_contexts s)); [destruct X|cbn; lia].
        * assert (X : In d (filter (others loc) (st_contexts s))) by (apply filter_In; split; [eapply nth_error_In; exact Hd|exact Bd]).
          destruct (filter (others loc) (st_contexts s)); [destruct X|cbn; lia].
    - intros H. split.
      + apply filter_at_most_one. intros i j c d Hc Hd Bc Bd. apply AD in Bc, Bd. destruct Bc as (B1 & B2 & B3), Bd as (E1 & E2 & E3).
        exact (H i j c d Hc Hd B1 E1 B2 E2 B3).
      + intros [D O].
        destruct (filter (defaults loc) (st_contexts s)) as [|c ld] eqn:ED; [cbn in D; lia|].
        destruct (filter (others loc) (st_contexts s)) as [|d lo] eqn:EO; [cbn in O; lia|].
        assert (Xc : In c (filter (defaults loc) (st_contexts s))) by (rewrite ED; left; reflexivity).
        assert (Xd : In d (filter (others loc) (st_contexts s))) by (rewrite EO; left; reflexivity).
        apply filter_In in Xc, Xd. destruct Xc as [Ic Bc], Xd as [Id Bd].
        apply In_nth_error in Ic, Id. destruct Ic as [i Hc], Id as [j Hd]. apply AD in Bc. apply AO in Bd.
        destruct Bc as (B1 & B2 & B3), Bd as (E1 & E2 & E3).
        pose proof (H i j c d Hc Hd B1 E1 B2 E2 B3) as E. subst j. unfold at_slot in *. congruence.
  Qed.

  Lemma localities_iff s :
    check_context_handles_per_locality s = Ok tt <-> forall loc, lone_default s loc.
  Proof.
    unfold check_context_handles_per_locality. rewrite all_ok_iff. split.
    - intros H loc i j c d Hc Hd Sc Sd Lc Ld. pose proof (H c (nth_error_In _ _ Hc)) as X. cbv beta in X. rewrite Lc in X.
      apply locality_iff in X. eapply X; eassumption.
    - intros H c _. apply locality_iff, H.
  Qed.

  Lemma validate_dpe_state_iff s : representable cf s ->
    validate_dpe_state cf s = Ok tt <->
    st_marker s = 0x44504553%N /\ st_version s = 1%N /\ locally_ok s /\ forall loc, lone_default s loc.
  Proof.
    intros R. unfold validate_dpe_state.
    change state_magic with 0x44504553%N. change state_version with 1%N.
    destruct (N.eqb_spec (st_marker s) 0x44504553) as [M|M]; cbn [negb]; [|split; [discriminate|tauto]].
    destruct (N.eqb_spec (st_version s) 1) as [V|V]; cbn [negb]; [|split; [discriminate|tauto]].
    assert (HA : all_ok (validate_context cf s) (enumerate (st_contexts s)) = Ok tt <-> locally_ok s).
    { rewrite all_ok_iff. split.
      - intros H. assert (H' : forall i c, at_slot s i c -> validate_context cf s (i, c) = Ok tt).
        { intros i c Hc. apply H. apply in_enumerate. exact Hc. }
        constructor; intros i c Hc; pose proof (proj1 (validate_context_iff s i c R Hc) (H' i c Hc)) as W; tauto.
      - intros L [i c] Hi. apply in_enumerate in Hi. apply (validate_context_iff s i c R Hi).
        split; [exact (lo_features s L i c Hi)|]. split; [exact (lo_free s L i c Hi)|].
        split; [exact (lo_locality s L i c Hi)|]. split; [exact (lo_initialized s L i c Hi)|].
        split; [exact (lo_links s L i c Hi)|exact (lo_retired s L i c Hi)]. }
    destruct (all_ok (validate_context cf s) (enumerate (st_contexts s))) as [[]|e|k]; cbn [rbind].
    - rewrite localities_iff. tauto.
    - split; [discriminate|]. intros (_ & _ & X & _). apply HA in X. discriminate.
    - split; [discriminate|]. intros (_ & _ & X & _). apply HA in X. discriminate.
  Qed.

  (** *** In-degrees *)
  Lemma add_degrees l : forall d, NoDup l -> (forall x, In x l -> x < length d) ->
    exists d', fold_left add_in_degree l (Ok d) = Ok d' /\ length d' = length d /\
      forall i n, nth_error d i = Some n -> nth_error d' i = Some (n + if existsb (Nat.eqb i) l then 1 else 0).
  Proof.
    induction l as [|x l IH]; intros d ND B; cbn [fold_left].
    - exists d. split; [reflexivity|]. split; [reflexivity|]. intros i n H. cbn. rewrite Nat.add_0_r. exact H.
    - inversion ND as [|y z Nx ND']; subst. cbn [add_in_degree rbind].
      destruct (nth_error d x) as [m|] eqn:Ex.
      2:{ exfalso. apply nth_error_None in Ex. specialize (B x (or_introl eq_refl)). lia. }
      destruct (IH (upd d x (S m)) ND') as (d' & E & L & Hd).
      { intros y Hy. rewrite length_upd. apply B. right. exact Hy. }
      exists d'. split; [exact E|]. rewrite length_upd in L. split; [exact L|]. intros i n Hi.
      cbn [existsb]. destruct (Nat.eqb_spec i x) as [->|N].
      + rewrite Ex in Hi. injection Hi as <-. cbn [orb].
        assert (F : existsb (Nat.eqb x) l = false).
        { apply not_true_is_false. intros T. apply existsb_exists in T. destruct T as (y & Hy & E'). apply Nat.eqb_eq in E'. subst y. contradiction. }
        rewrite (Hd x (S m)); [rewrite F; f_equal; lia|]. apply nth_error_upd_eq. apply B. left. reflexivity.
      + cbn [orb]. apply Hd. rewrite nth_error_upd_ne by congruence. exact Hi.
  Qed.

  Definition recorders (s : state) (i : nat) : nat :=
    length (filter (fun c => mem (c_children c) i) (st_contexts s)).

  Lemma fold_cons {A B} (f : A -> B -> A) b l a : fold_left f (b :: l) a = fold_left f l (f a b).
  Proof. reflexivity. Qed.

  Lemma degrees_fold : forall l d, length d = max_handles cf ->
    exists d', fold_left (fun deg c => fold_left add_in_degree (children_iter cf (c_children c)) deg) l (Ok d) = Ok d' /\
      length d' = max_handles cf /\
      forall i n, nth_error d i = Some n ->
        nth_error d' i = Some (n + length (filter (fun c => mem (c_children c) i) l)).
  Proof.
    induction l as [|c l IH]; intros d Ld.
    - exists d. split; [reflexivity|]. split; [exact Ld|]. intros i n H. cbn. rewrite Nat.add_0_r. exact H.
    - rewrite fold_cons. destruct (add_degrees (children_iter cf (c_children c)) d) as (d1 & E1 & L1 & H1).
      { apply NoDup_children_iter. exact Hcf. }
      { intros x Hx. apply in_children_iter in Hx; [|exact Hcf]. lia. }
      rewrite E1. clear E1. destruct (IH d1) as (d' & E & L & H); [lia|]. exists d'. split; [exact E|]. split; [exact L|].
      intros i n Hi. rewrite (H i _ (H1 i n Hi)). f_equal.
      assert (X : existsb (Nat.eqb i) (children_iter cf (c_children c)) = mem (c_children c) i).
      { apply eq_true_iff_eq. rewrite existsb_exists. split.
        - intros (y & Hy & E'). apply Nat.eqb_eq in E'. subst y. apply in_children_iter in Hy; [tauto|exact Hcf].
        - intros M. exists i. split; [|apply Nat.eqb_refl]. apply in_children_iter; [exact Hcf|]. split; [|exact M].
          rewrite <- Ld. apply nth_error_Some. congruence. }
      rewrite X. cbn [filter]. destruct (mem (c_children c) i); cbn [length]; lia.
  Qed.

  Lemma in_degrees_ok s :
    exists d, in_degrees cf s = Ok d /\ length d = max_handles cf /\
      forall i, i < max_handles cf -> nth_error d i = Some (recorders s i).
  Proof.
    unfold in_degrees. destruct (degrees_fold (st_contexts s) (repeat 0 (max_handles cf))) as (d & E & L & H).
    { apply repeat_length. }
    exists d. split; [exact E|]. split; [exact L|]. intros i Hi. rewrite (H i 0); [reflexivity|].
    apply nth_error_repeat. exact Hi.
  Qed.

  Lemma slot_not_root s i c : representable cf s -> at_slot s i c -> i <> ROOT.
  Proof. intros [L _] H E. apply at_lt in H. subst i. rewrite L in H. pose proof Hcf. unfold config_ok in *. unfold ROOT in *. lia. Qed.

  Lemma recorder_live s i c k : locally_ok s -> at_slot s i c -> has_bit (c_children c) k -> live c.
  Proof.
    intros L Hc M. destruct (live_dec c) as [Lv|I]; [exact Lv|]. destruct (lo_free s L i c Hc I) as (_ & Z & _).
    unfold has_bit in M. rewrite Z, N.bits_0 in M. discriminate.
  Qed.
  Lemma recorder_one s i j c d k : locally_ok s -> at_slot s i c -> at_slot s j d ->
    has_bit (c_children c) k -> has_bit (c_children d) k -> i = j.
  Proof.
    intros L Hc Hd Mc Md.
    destruct (proj2 (lo_links s L i c Hc (recorder_live s i c k L Hc Mc)) k Mc) as (x & Hx & _ & Px).
    destruct (proj2 (lo_links s L j d Hd (recorder_live s j d k L Hd Md)) k Md) as (y & Hy & _ & Py).
    pose proof (at_det _ _ _ _ Hx Hy). congruence.
  Qed.
  Lemma recorders_le s k : locally_ok s -> recorders s k <= 1.
  Proof.
    intros L. unfold recorders. apply filter_at_most_one. intros i j c d Hc Hd Mc Md.
    exact (recorder_one s i j c d k L Hc Hd Mc Md).
  Qed.
  Lemma recorders_zero s i c : representable cf s -> locally_ok s -> at_slot s i c -> live c ->
    (recorders s i = 0 <-> c_parent c = ROOT).
  Proof.
    intros R L Hc Lc. unfold recorders. split.
    - intros Z. destruct (Nat.eq_dec (c_parent c) ROOT) as [E|E]; [exact E|exfalso].
      destruct (proj1 (lo_links s L i c Hc Lc) E) as (p & Hp & _ & B).
      assert (X : In p (filter (fun c => mem (c_children c) i) (st_contexts s))).
      { apply filter_In. split; [eapply nth_error_In; exact Hp|exact B]. }
      destruct (filter (fun c => mem (c_children c) i) (st_contexts s)); [destruct X|discriminate].
    - intros E. destruct (filter (fun c => mem (c_children c) i) (st_contexts s)) as [|p l] eqn:EF; [reflexivity|exfalso].
      assert (X : In p (filter (fun c => mem (c_children c) i) (st_contexts s))) by (rewrite EF; left; reflexivity).
      apply filter_In in X. destruct X as [Ip B]. apply In_nth_error in Ip. destruct Ip as [k Hk].
      destruct (proj2 (lo_links s L k p Hk (recorder_live s k p i L Hk B)) i B) as (x & Hx & _ & Px).
      pose proof (at_det _ _ _ _ Hx Hc). subst x. apply (slot_not_root s k p R Hk). congruence.
  Qed.

  (** *** Depth-first search: an invariant rule *)
  Lemma detect_inv (s : state) (ty : ctx_type) (T : nat -> Prop) (P : list bool -> Prop) :
    (forall i c, T i -> at_slot s i c -> live c -> c_type c = ty -> forall j, In j (children_iter cf (c_children c)) -> T j) ->
    (forall i c seen, T i -> at_slot s i c -> live c -> c_type c = ty -> P seen -> P (upd seen i true)) ->
    forall n i seen seen', T i -> P seen ->
      detect_invalid_subtree cf n s i seen ty = Ok seen' -> P seen'.
  Proof.
    intros HT HP. induction n as [|n IH]; intros i seen seen' Ti Ps; cbn [detect_invalid_subtree]; [discriminate|].
    unfold get_ctx. destruct (nth_error (st_contexts s) i) as [c|] eqn:Ec; [|discriminate].
    destruct (nth_error seen i) as [sn|] eqn:Es; [|discriminate].
    destruct (Nat.leb (max_handles cf) i || ctx_state_eqb (c_state c) Inactive || sn)%bool eqn:G; [discriminate|].
    apply orb_false_iff in G. destruct G as [G _]. apply orb_false_iff in G. destruct G as [_ G].
    apply ctx_state_eqb_neq in G.
    destruct (ctx_type_eqb (c_type c) ty) eqn:Ty; cbn [negb]; [|discriminate]. apply ctx_type_eqb_eq in Ty.
    pose proof (HT i c Ti Ec G Ty) as HC. pose proof (HP i c seen Ti Ec G Ty Ps) as HP1.
    generalize dependent (children_iter cf (c_children c)). generalize (upd seen i true) HP1. clear - IH.
    intros sn Psn l. revert sn Psn. induction l as [|j l IHl]; intros sn Psn HC.
    - cbn [fold_left]. congruence.
    - rewrite fold_cons. cbn [rbind].
      destruct (detect_invalid_subtree cf n s j sn ty) as [sn1|e|k] eqn:E1.
      + intros E. eapply IHl; [|intros x Hx; apply HC; right; exact Hx|exact E].
        eapply IH; [apply HC; left; reflexivity|exact Psn|exact E1].
      + clear. induction l as [|x l IH]; [discriminate|exact IH].
      + clear. induction l as [|x l IH]; [discriminate|exact IH].
  Qed.

  Definition same_type_path (s : state) (i : nat) : Prop :=
    exists l, path s i l /\ forall a b ca cb, In a l -> In b l -> at_slot s a ca -> at_slot s b cb -> c_type ca = c_type cb.
  Definition seen_good (s : state) (seen : list bool) : Prop :=
    length seen = max_handles cf /\ forall j, nth_error seen j = Some true -> same_type_path s j.
  Definition below_typed (s : state) (ty : ctx_type) (i : nat) : Prop :=
    exists c, at_slot s i c /\ live c /\
      (c_parent c = ROOT \/
       exists l, path s (c_parent c) l /\ c_parent c <> ROOT /\ forall a ca, In a l -> at_slot s a ca -> c_type ca = ty).

  Lemma below_typed_path s ty i c : below_typed s ty i -> at_slot s i c -> c_type c = ty ->
    exists l, path s i l /\ forall a ca, In a l -> at_slot s a ca -> c_type ca = ty.
  Proof.
    intros (c' & Hc' & Lc & D) Hc Ty. pose proof (at_det _ _ _ _ Hc Hc'). subst c'. destruct D as [R|(l & Pl & N & Al)].
    - exists [i]. split; [econstructor; eauto|]. intros a ca [<-|[]] Ha. pose proof (at_det _ _ _ _ Hc Ha). congruence.
    - exists (i :: l). split; [econstructor; eauto|]. intros a ca [<-|I] Ha; [|eauto].
      pose proof (at_det _ _ _ _ Hc Ha). congruence.
  Qed.

  Lemma detect_sound s ty n i seen seen' : representable cf s -> locally_ok s -> below_typed s ty i -> seen_good s seen ->
    detect_invalid_subtree cf n s i seen ty = Ok seen' -> seen_good s seen'.
  Proof.
    intros R L. apply detect_inv with (T := below_typed s ty) (P := seen_good s).
    - intros k c Tk Hc Lc Ty j Hj. apply in_children_iter in Hj; [|exact Hcf]. destruct Hj as [_ Hj].
      destruct (proj2 (lo_links s L k c Hc Lc) j Hj) as (d & Hd & Ld & Pd). exists d. split; [exact Hd|]. split; [exact Ld|]. right.
      destruct (below_typed_path s ty k c Tk Hc Ty) as (l & Pl & Al). exists l. rewrite Pd. split; [exact Pl|]. split; [|exact Al].
      exact (slot_not_root s k c R Hc).
    - intros k c sn Tk Hc Lc Ty [Ln G]. split; [rewrite length_upd; exact Ln|]. intros j Hj.
      destruct (Nat.eq_dec k j) as [<-|N].
      + destruct (below_typed_path s ty k c Tk Hc Ty) as (l & Pl & Al). exists l. split; [exact Pl|]. intros a b ca cb Ia Ib Ha Hb.
        rewrite (Al a ca Ia Ha), (Al b cb Ib Hb). reflexivity.
      + rewrite nth_error_upd_ne in Hj by exact N. exact (G j Hj).
  Qed.

  (** Entries of the search's work list. *)
  Definition entry (s : state) (x : nat * (context * nat)) : Prop :=
    at_slot s (fst x) (fst (snd x)) /\ snd (snd x) = recorders s (fst x).
  Definition normal_root (x : nat * (context * nat)) : bool :=
    (Nat.eqb (snd (snd x)) 0 && negb (ctx_state_eqb (c_state (fst (snd x))) Inactive)
     && ctx_type_eqb (c_type (fst (snd x))) Normal)%bool.

  Lemma dfs_sound s : representable cf s -> locally_ok s ->
    forall l seen trees seen' trees', (forall x, In x l -> entry s x) -> seen_good s seen ->
      forest_dfs cf s l seen trees = Ok (seen', trees') ->
      seen_good s seen' /\ trees' = trees + length (filter normal_root l).
  Proof.
    intros R L. induction l as [|[i [c deg]] l IH]; intros seen trees seen' trees' HE G; cbn [forest_dfs].
    - intros E. injection E as <- <-. split; [exact G|]. cbn. lia.
    - assert (HE' : forall x, In x l -> entry s x) by (intros x Hx; apply HE; right; exact Hx).
      assert (FN : length (filter normal_root ((i, (c, deg)) :: l)) =
        (if normal_root (i, (c, deg)) then 1 else 0) + length (filter normal_root l)).
      { cbn [filter]. destruct (normal_root (i, (c, deg))); reflexivity. }
      rewrite FN. clear FN. unfold normal_root at 1. cbn [fst snd].
      destruct (HE _ (or_introl eq_refl)) as [Hc Hd]. cbn [fst snd] in Hc, Hd.
      destruct (Nat.eqb deg 0 && negb (ctx_state_eqb (c_state c) Inactive))%bool eqn:RT; cbn [andb].
      + apply andb_true_iff in RT. destruct RT as [R0 RL]. apply Nat.eqb_eq in R0. apply negb_true_iff, ctx_state_eqb_neq in RL.
        destruct (detect_invalid_subtree cf (S (max_handles cf)) s i seen (c_type c)) as [sn|e|k] eqn:E1; cbn [rbind]; [|discriminate..].
        intros E. apply IH in E; [|exact HE'|].
        * destruct E as [E2 E3]. split; [exact E2|]. rewrite E3. destruct (ctx_type_eqb (c_type c) Normal); lia.
        * eapply detect_sound; [exact R|exact L| |exact G|exact E1]. exists c. split; [exact Hc|]. split; [exact RL|]. left.
          apply (recorders_zero s i c R L Hc RL). congruence.
      + intros E. apply IH in E; [exact E|exact HE'|exact G].
  Qed.

  (** *** Subtrees *)
  Lemma below_self s i l : path s i l -> below s i i.
  Proof.
    intros Pl. exists l. split; [exact Pl|]. destruct (path_head _ _ _ Pl) as (l' & ->). left. reflexivity.
  Qed.
  Lemma below_children s i j : below s i j -> j = i \/ exists x, child_of s i x /\ below s x j.
  Proof.
    intros (l & Pl & Il). induction Pl as [j c Hc Lc Rc|j c l Hc Lc Nc Pl IH].
    - destruct Il as [E|[]]. left. congruence.
    - destruct Il as [E|Il]; [left; congruence|]. right. destruct (IH Il) as [E|(x & Cx & (l' & Pl' & Il'))].
      + exists j. split; [exists c; auto|]. exists (j :: l). split; [econstructor; eauto|left; reflexivity].
      + exists x. split; [exact Cx|]. exists (j :: l). split; [econstructor; eauto|right].
        rewrite (path_det _ _ _ Pl _ Pl'). exact Il'.
  Qed.
  Lemma child_path' s i x l : representable cf s -> path s i l -> child_of s i x -> path s x (x :: l).
  Proof.
    intros R Pl (d & Hd & Ld & Pd). destruct (path_head _ _ _ Pl) as (l' & E).
    destruct (path_live _ _ _ Pl i) as (c & Hc & _); [rewrite E; left; reflexivity|].
    econstructor; [exact Hd|exact Ld| |rewrite Pd; exact Pl]. rewrite Pd. exact (slot_not_root s i c R Hc).
  Qed.
  Lemma child_below s i li x j : representable cf s -> path s i li -> child_of s i x -> below s x j -> below s i j.
  Proof.
    intros R Pi Cx (l & Pl & Il). exists l. split; [exact Pl|].
    destruct (path_suffix _ _ _ Pl _ Il) as (l1 & l2 & E & P2).
    pose proof (child_path' s i x li R Pi Cx) as P3.
    pose proof (path_det _ _ _ P2 _ P3) as E2. injection E2 as ->. destruct (path_head _ _ _ Pi) as (l' & ->).
    rewrite E. apply in_app_iff. right. right. left. reflexivity.
  Qed.
  Lemma siblings_apart s i li x y j : representable cf s -> path s i li -> child_of s i x -> child_of s i y ->
    below s x j -> below s y j -> x = y.
  Proof.
    intros R Pi Cx Cy (l & Pl & Ix) (l' & Pl' & Iy). rewrite <- (path_det _ _ _ Pl _ Pl') in Iy.
    destruct (path_suffix _ _ _ Pl _ Ix) as (l1 & l2 & E & P2). destruct (path_suffix _ _ _ Pl _ Iy) as (k1 & k2 & E' & P2').
    pose proof (path_det _ _ _ P2 _ (child_path' s i x li R Pi Cx)) as E2. injection E2 as ->.
    pose proof (path_det _ _ _ P2' _ (child_path' s i y li R Pi Cy)) as E2. injection E2 as ->.
    rewrite E in E'. assert (Q : (l1 ++ [x]) ++ li = (k1 ++ [y]) ++ li) by (rewrite <- !app_assoc; exact E').
    apply app_inv_tail in Q. apply app_inj_tail in Q. tauto.
  Qed.
  Lemma roots_apart s x y cx cy j : at_slot s x cx -> c_parent cx = ROOT -> at_slot s y cy -> c_parent cy = ROOT ->
    below s x j -> below s y j -> x = y.
  Proof.
    intros Hx Rx Hy Ry (l & Pl & Ix) (l' & Pl' & Iy). rewrite <- (path_det _ _ _ Pl _ Pl') in Iy.
    destruct (path_suffix _ _ _ Pl _ Ix) as (l1 & l2 & E & P2). destruct (path_suffix _ _ _ Pl _ Iy) as (k1 & k2 & E' & P2').
    inversion P2; subst; [|match goal with H : at_slot s x _ |- _ => pose proof (at_det _ _ _ _ H Hx); congruence end].
    inversion P2'; subst; [|match goal with H : at_slot s y _ |- _ => pose proof (at_det _ _ _ _ H Hy); congruence end].
    apply app_inj_tail in E'. tauto.
  Qed.
  Lemma path_has_root s i l : path s i l -> exists r cr, In r l /\ at_slot s r cr /\ live cr /\ c_parent cr = ROOT.
  Proof.
    induction 1 as [i c Hc Lc Rc|i c l Hc Lc Nc Pl (r & cr & I & A)].
    - exists i, c. split; [left; reflexivity|auto].
    - exists r, cr. split; [right; exact I|exact A].
  Qed.

  (** *** What the search returns when single slots and links are in order *)
  Definition mixed (s : state) : Prop :=
    exists i c p, at_slot s i c /\ live c /\ at_slot s (c_parent c) p /\ c_type c <> c_type p.
  Definition mixed_error {A} : result A := Err (ValidationErr MixedContextTypeConnectedComponents).

  Lemma iter_child s i c x : representable cf s -> locally_ok s -> at_slot s i c -> live c ->
    (In x (children_iter cf (c_children c)) <-> child_of s i x).
  Proof.
    intros R L Hc Lc. rewrite in_children_iter by exact Hcf. split.
    - intros [_ M]. exact (proj2 (lo_links s L i c Hc Lc) x M).
    - intros (d & Hd & Ld & Pd). pose proof (at_lt _ _ _ Hd) as Lt. rewrite (proj1 R) in Lt. split; [exact Lt|].
      destruct (proj1 (lo_links s L x d Hd Ld)) as (p & Hp & _ & B); [rewrite Pd; exact (slot_not_root s i c R Hc)|].
      rewrite Pd in Hp. pose proof (at_det _ _ _ _ Hc Hp). subst p. exact B.
  Qed.

  Lemma fold_stuck {A B} (f : B -> A -> result A) e (l : list B) :
    fold_left (fun acc b => rbind acc (f b)) l (Err e) = Err e.
  Proof. induction l as [|b l IH]; [reflexivity|exact IH]. Qed.

  Lemma detect_result s : representable cf s -> locally_ok s ->
    forall n i l c seen ty, path s i l -> n + length l = max_handles cf + 2 -> at_slot s i c -> live c ->
      (c_type c = ty \/ mixed s) ->
      length seen = max_handles cf -> (forall j, below s i j -> nth_error seen j = Some false) ->
      (mixed s /\ detect_invalid_subtree cf n s i seen ty = mixed_error) \/
      exists seen', detect_invalid_subtree cf n s i seen ty = Ok seen' /\ length seen' = max_handles cf /\
        (forall j, below s i j -> nth_error seen' j = Some true) /\
        (forall j, ~ below s i j -> nth_error seen' j = nth_error seen j).
  Proof.
    intros R L. induction n as [|n IH]; intros i l c seen ty Pl Hn Hc Lc Ty Ls U.
    { exfalso. pose proof (path_bound _ _ _ Pl) as B. destruct R as [Ln _]. lia. }
    pose proof (at_lt _ _ _ Hc) as Lt. pose proof (proj1 R) as Ln. rewrite Ln in Lt.
    assert (DE : detect_invalid_subtree cf (S n) s i seen ty =
      if negb (ctx_type_eqb (c_type c) ty) then verr MixedContextTypeConnectedComponents
      else fold_left (fun acc ch => rbind acc (fun sn => detect_invalid_subtree cf n s ch sn ty))
                     (children_iter cf (c_children c)) (Ok (upd seen i true))).
    { cbn [detect_invalid_subtree]. unfold get_ctx. rewrite Hc. rewrite (U i (below_self s i l Pl)).
      destruct (Nat.leb_spec (max_handles cf) i) as [X|_]; [lia|].
      destruct (ctx_state_eqb (c_state c) Inactive) eqn:I; [apply ctx_state_eqb_eq in I; contradiction|]. reflexivity. }
    rewrite DE. clear DE.
    destruct (ctx_type_eqb (c_type c) ty) eqn:T; cbn [negb].
    2:{ apply ctx_type_eqb_neq in T. left. split; [|reflexivity]. destruct Ty as [Ty|M]; [contradiction|exact M]. }
    apply ctx_type_eqb_eq in T. clear Ty.
    assert (HL : forall cs sn, NoDup cs -> (forall x, In x cs -> child_of s i x) -> length sn = max_handles cf ->
      (forall x j, In x cs -> below s x j -> nth_error sn j = Some false) ->
      (mixed s /\ fold_left (fun acc ch => rbind acc (fun sn => detect_invalid_subtree cf n s ch sn ty)) cs (Ok sn) = mixed_error) \/
      exists sn', fold_left (fun acc ch => rbind acc (fun sn => detect_invalid_subtree cf n s ch sn ty)) cs (Ok sn) = Ok sn' /\
        length sn' = max_handles cf /\
        (forall x j, In x cs -> below s x j -> nth_error sn' j = Some true) /\
        (forall j, (forall x, In x cs -> ~ below s x j) -> nth_error sn' j = nth_error sn j)).
    { induction cs as [|x cs IHc]; intros sn ND Ch Lsn Un.
      - right. exists sn. split; [reflexivity|]. split; [exact Lsn|]. split; [intros x j []|reflexivity].
      - rewrite fold_cons. cbn [rbind]. inversion ND as [|y z Nx ND']; subst y z.
        destruct (Ch x (or_introl eq_refl)) as (d & Hd & Ld & Pd).
        assert (Ty : c_type d = ty \/ mixed s).
        { destruct (ctx_type_eqb (c_type d) ty) eqn:Td; [left; apply ctx_type_eqb_eq; exact Td|right].
          apply ctx_type_eqb_neq in Td. exists x, d, c. rewrite Pd. repeat split; [exact Hd|exact Ld|exact Hc|congruence]. }
        destruct (IH x (x :: l) d sn ty) as [[Mx E1]|(s1 & E1 & L1 & T1 & K1)].
        + apply (child_path' s i x l R Pl). exists d. auto.
        + cbn [length]. lia.
        + exact Hd.
        + exact Ld.
        + exact Ty.
        + exact Lsn.
        + intros j Hj. apply (Un x j); [left; reflexivity|exact Hj].
        + left. split; [exact Mx|]. rewrite E1. unfold mixed_error.
          exact (fold_stuck (fun ch sn => detect_invalid_subtree cf n s ch sn ty) _ cs).
        + rewrite E1.
          destruct (IHc s1 ND') as [[Mx E2]|(s2 & E2 & L2 & T2 & K2)].
          * intros y Hy. apply Ch. right. exact Hy.
          * exact L1.
          * intros y j Hy By. rewrite K1; [apply (Un y j); [right; exact Hy|exact By]|]. intros Bx.
            assert (x = y); [|subst; contradiction].
            apply (siblings_apart s i l x y j R Pl); [apply Ch; left; reflexivity|apply Ch; right; exact Hy|exact Bx|exact By].
          * left. split; [exact Mx|exact E2].
          * right. exists s2. split; [exact E2|]. split; [exact L2|]. split.
            -- intros y j [<-|Hy] By; [|exact (T2 y j Hy By)].
               rewrite K2; [exact (T1 j By)|]. intros y Hy By'.
               assert (x = y); [|subst; contradiction].
               apply (siblings_apart s i l x y j R Pl); [apply Ch; left; reflexivity|apply Ch; right; exact Hy|exact By|exact By'].
            -- intros j Nj. rewrite K2 by (intros y Hy; apply Nj; right; exact Hy). apply K1. apply Nj. left. reflexivity. }
    assert (IC1 : forall x, In x (children_iter cf (c_children c)) -> child_of s i x) by (intros x; exact (proj1 (iter_child s i c x R L Hc Lc))).
    assert (IC2 : forall x, child_of s i x -> In x (children_iter cf (c_children c))) by (intros x; exact (proj2 (iter_child s i c x R L Hc Lc))).
    assert (Self : forall x, In x (children_iter cf (c_children c)) -> ~ below s x i).
    { intros x Hx (l' & Pl' & Il'). apply IC1 in Hx. rewrite <- (path_det _ _ _ Pl _ Pl') in Il'.
      pose proof (path_NoDup _ _ _ (child_path' s i x l R Pl Hx)) as ND. inversion ND; subst. contradiction. }
    destruct (HL (children_iter cf (c_children c)) (upd seen i true)) as [M|(sn' & E & L' & T' & K')].
    - apply NoDup_children_iter. exact Hcf.
    - exact IC1.
    - rewrite length_upd. exact Ls.
    - intros x j Hx Bx. assert (i <> j) by (intros <-; exact (Self x Hx Bx)). apply IC1 in Hx.
      rewrite nth_error_upd_ne by exact H. apply U. exact (child_below s i l x j R Pl Hx Bx).
    - left. exact M.
    - right. exists sn'. split; [exact E|]. split; [exact L'|]. split.
      + intros j Bj. destruct (below_children s i j Bj) as [->|(x & Cx & Bx)].
        * rewrite K' by exact Self. apply nth_error_upd_eq. lia.
        * apply (T' x j); [|exact Bx]. exact (IC2 x Cx).
      + intros j Nj. rewrite K'.
        * apply nth_error_upd_ne. intros <-. apply Nj. exact (below_self s i l Pl).
        * intros x Hx Bx. apply Nj. apply IC1 in Hx. exact (child_below s i l x j R Pl Hx Bx).
  Qed.

  Lemma dfs_result s : representable cf s -> locally_ok s ->
    forall l seen trees, (forall x, In x l -> entry s x) -> NoDup (map fst l) -> length seen = max_handles cf ->
      (forall i c g j, In (i, (c, g)) l -> live c -> c_parent c = ROOT -> below s i j -> nth_error seen j = Some false) ->
      (mixed s /\ forest_dfs cf s l seen trees = mixed_error) \/
      exists seen', forest_dfs cf s l seen trees = Ok (seen', trees + length (filter normal_root l)) /\
        length seen' = max_handles cf /\
        (forall i c g j, In (i, (c, g)) l -> live c -> c_parent c = ROOT -> below s i j -> nth_error seen' j = Some true) /\
        (forall j, (forall i c g, In (i, (c, g)) l -> live c -> c_parent c = ROOT -> ~ below s i j) -> nth_error seen' j = nth_error seen j).
  Proof.
    intros R L. induction l as [|[i [c deg]] l IH]; intros seen trees HE ND Ls U; cbn [forest_dfs].
    - right. exists seen. cbn [filter length]. rewrite Nat.add_0_r. split; [reflexivity|]. split; [exact Ls|]. split; [intros ? ? ? ? []|reflexivity].
    - assert (HE' : forall x, In x l -> entry s x) by (intros x Hx; apply HE; right; exact Hx).
      cbn [map fst] in ND. inversion ND as [|y z Nx ND']; subst y z.
      assert (FN : length (filter normal_root ((i, (c, deg)) :: l)) =
        (if normal_root (i, (c, deg)) then 1 else 0) + length (filter normal_root l)).
      { cbn [filter]. destruct (normal_root (i, (c, deg))); reflexivity. }
      rewrite FN. clear FN. unfold normal_root at 1. cbn [fst snd].
      destruct (HE _ (or_introl eq_refl)) as [Hc Hd]. cbn [fst snd] in Hc, Hd.
      destruct (Nat.eqb deg 0 && negb (ctx_state_eqb (c_state c) Inactive))%bool eqn:RT; cbn [andb].
      + apply andb_true_iff in RT. destruct RT as [R0 RL]. apply Nat.eqb_eq in R0. apply negb_true_iff, ctx_state_eqb_neq in RL.
        assert (Rt : c_parent c = ROOT) by (apply (recorders_zero s i c R L Hc RL); congruence).
        destruct (detect_result s R L (S (max_handles cf)) i [i] c seen (c_type c)) as [[Mx E1]|(s1 & E1 & L1 & T1 & K1)].
        * econstructor; eauto.
        * cbn [length]. lia.
        * exact Hc.
        * exact RL.
        * left. reflexivity.
        * exact Ls.
        * intros j Bj. exact (U i c deg j (or_introl eq_refl) RL Rt Bj).
        * left. split; [exact Mx|]. rewrite E1. reflexivity.
        * rewrite E1. cbn [rbind].
          assert (Apart : forall k d g j, In (k, (d, g)) l -> live d -> c_parent d = ROOT -> below s k j -> ~ below s i j).
          { intros k d g j Ik Lk Rk Bk Bi. destruct (HE' _ Ik) as [Hk _]. cbn [fst snd] in Hk.
            pose proof (roots_apart s i k c d j Hc Rt Hk Rk Bi Bk). subst k. apply Nx. apply in_map_iff. exists (i, (d, g)). auto. }
          destruct (IH s1 (if ctx_type_eqb (c_type c) Normal then S trees else trees) HE' ND' L1) as [M|(s2 & E2 & L2 & T2 & K2)].
          -- intros k d g j Ik Lk Rk Bk. rewrite K1 by exact (Apart k d g j Ik Lk Rk Bk). apply (U k d g j); auto. right. exact Ik.
          -- left. exact M.
          -- right. exists s2. split; [rewrite E2; destruct (ctx_type_eqb (c_type c) Normal); do 2 f_equal; lia|]. split; [exact L2|]. split.
             ++ intros k d g j [Ek|Ik] Lk Rk Bk; [|exact (T2 k d g j Ik Lk Rk Bk)]. injection Ek as <- <- <-.
                rewrite K2; [exact (T1 j Bk)|]. intros k d g Ik Lk' Rk' Bk'. exact (Apart k d g j Ik Lk' Rk' Bk' Bk).
             ++ intros j Nj. rewrite K2 by (intros k d g Ik; apply (Nj k d g); right; exact Ik).
                apply K1. exact (Nj i c deg (or_introl eq_refl) RL Rt).
      + assert (NR : live c -> c_parent c = ROOT -> False).
        { intros Lc Rc. apply (recorders_zero s i c R L Hc Lc) in Rc. rewrite <- Hd in Rc. subst deg. rewrite Rc in RT.
          cbn [Nat.eqb andb] in RT. apply negb_false_iff, ctx_state_eqb_eq in RT. contradiction. }
        destruct (IH seen trees HE' ND' Ls) as [M|(s2 & E2 & L2 & T2 & K2)].
        * intros k d g j Ik. apply (U k d g j). right. exact Ik.
        * left. exact M.
        * right. exists s2. split; [exact E2|]. split; [exact L2|]. split.
          -- intros k d g j [Ek|Ik]; [|apply (T2 k d g j Ik)]. injection Ek as <- <- <-. intros A B. destruct (NR A B).
          -- intros j Nj. apply K2. intros k d g Ik. apply (Nj k d g). right. exact Ik.
  Qed.

  (** *** The whole validator *)
  Lemma combine_nth {A B} : forall (l : list A) (l' : list B) i,
    nth_error (combine l l') i =
    match nth_error l i, nth_error l' i with Some a, Some b => Some (a, b) | _, _ => None end.
  Proof.
    induction l as [|a l IH]; intros [|b l'] [|i]; cbn [combine nth_error]; try reflexivity.
    - destruct (nth_error l i); reflexivity.
    - apply IH.
  Qed.
  Lemma map_fst_enumerate {A} (l : list A) : map fst (enumerate l) = seq 0 (length l).
  Proof.
    unfold enumerate. generalize 0. induction l as [|a l IH]; intros n; cbn [length seq combine map fst]; [reflexivity|].
    f_equal. apply IH.
  Qed.

  Definition worklist (s : state) (d : list nat) := enumerate (combine (st_contexts s) d).

  Lemma worklist_in s d : representable cf s -> length d = max_handles cf ->
    (forall i, i < max_handles cf -> nth_error d i = Some (recorders s i)) ->
    forall i c g, nth_error (worklist s d) i = Some (i, (c, g)) <-> at_slot s i c /\ g = recorders s i.
  Proof.
    intros [Ln _] Ld Hd i c g. unfold worklist. rewrite nth_error_enumerate, combine_nth. unfold at_slot.
    destruct (nth_error (st_contexts s) i) as [c'|] eqn:Ec.
    - assert (Lt : i < max_handles cf) by (rewrite <- Ln; apply nth_error_Some; congruence).
      rewrite (Hd i Lt). cbn. split; [intros E; injection E as <- <-; auto|intros [E ->]; congruence].
    - cbn. split; [discriminate|intros [E _]; discriminate].
  Qed.

  Lemma forest_of_locals s : representable cf s -> locally_ok s -> (forall i, live_at s i -> exists l, path s i l) -> forest cf s.
  Proof.
    intros [Ln B] L P. constructor.
    - exact Ln.
    - intros i c Hc Lc. exact (proj1 (lo_links s L i c Hc Lc)).
    - intros i c j Hc Hj. pose proof (recorder_live s i c j L Hc Hj) as Lc. split; [exact Lc|].
      exact (proj2 (lo_links s L i c Hc Lc) j Hj).
    - exact P.
    - intros i c Hc I. exact (proj1 (lo_free s L i c Hc I)).
    - intros i c Hc I. exact (lo_retired s L i c Hc I).
  Qed.

  Lemma validate_forest_iff s : representable cf s -> locally_ok s ->
    validate_context_forest cf s = Ok tt <->
    forest cf s /\
    (forall i c p, at_slot s i c -> live c -> at_slot s (c_parent c) p -> c_type c = c_type p) /\
    (forall i j c d, at_slot s i c -> at_slot s j d -> live c -> live d ->
      c_parent c = ROOT -> c_parent d = ROOT -> c_type c = Normal -> c_type d = Normal -> i = j).
  Proof.
    intros R L. unfold validate_context_forest.
    destruct (in_degrees_ok s) as (d & Ed & Ld & Hd). rewrite Ed. cbn [rbind].
    assert (EX : existsb (Nat.ltb 1) d = false).
    { apply not_true_is_false. intros T. apply existsb_exists in T. destruct T as (n & In_n & Hn). apply Nat.ltb_lt in Hn.
      apply In_nth_error in In_n. destruct In_n as [i Hi]. assert (Lt : i < max_handles cf) by (rewrite <- Ld; apply nth_error_Some; congruence).
      rewrite (Hd i Lt) in Hi. injection Hi as <-. pose proof (recorders_le s i L). lia. }
    rewrite EX. clear EX. fold (worklist s d).
    pose proof (worklist_in s d R Ld Hd) as W.
    assert (WI : forall x, In x (worklist s d) -> nth_error (worklist s d) (fst x) = Some x).
    { intros [i y] Hx. cbn [fst]. apply In_nth_error in Hx. destruct Hx as [k Hk]. unfold worklist in Hk. rewrite nth_error_enumerate in Hk.
      destruct (nth_error (combine (st_contexts s) d) k) eqn:Ek; [|discriminate]. injection Hk as <- <-.
      unfold worklist. rewrite nth_error_enumerate, Ek. reflexivity. }
    assert (WE : forall x, In x (worklist s d) -> entry s x).
    { intros [i [c g]] Hx. apply WI in Hx. cbn [fst] in Hx. apply W in Hx. exact Hx. }
    assert (WN : NoDup (map fst (worklist s d))) by (unfold worklist; rewrite map_fst_enumerate; apply seq_NoDup).
    assert (NRI : forall i c g, nth_error (worklist s d) i = Some (i, (c, g)) ->
      (normal_root (i, (c, g)) = true <-> live c /\ c_parent c = ROOT /\ c_type c = Normal)).
    { intros i c g Hi. apply W in Hi. destruct Hi as [Hc Hg]. unfold normal_root. cbn [fst snd].
      rewrite !andb_true_iff, negb_true_iff, Nat.eqb_eq, ctx_state_eqb_neq, ctx_type_eqb_eq. unfold live. split.
      - intros [[Z Lc] T]. split; [exact Lc|]. split; [|exact T]. apply (recorders_zero s i c R L Hc Lc). congruence.
      - intros (Lc & Rc & T). split; [|exact T]. split; [|exact Lc]. rewrite Hg. apply (recorders_zero s i c R L Hc Lc). exact Rc. }
    assert (ONE : length (filter normal_root (worklist s d)) <= 1 <->
      (forall i j c d, at_slot s i c -> at_slot s j d -> live c -> live d ->
        c_parent c = ROOT -> c_parent d = ROOT -> c_type c = Normal -> c_type d = Normal -> i = j)).
    { rewrite filter_at_most_one. split.
      - intros H i j ci cj Hi Hj Li Lj Ri Rj Ti Tj. 
        assert (Wi : nth_error (worklist s d) i = Some (i, (ci, recorders s i))) by (apply W; auto).
        assert (Wj : nth_error (worklist s d) j = Some (j, (cj, recorders s j))) by (apply W; auto).
        apply (H i j _ _ Wi Wj); [apply (NRI i ci _ Wi)|apply (NRI j cj _ Wj)]; auto.
      - intros H i j [i' [ci gi]] [j' [cj gj]] Wi Wj Ni Nj.
        pose proof (WI _ (nth_error_In _ _ Wi)) as Wi'. pose proof (WI _ (nth_error_In _ _ Wj)) as Wj'. cbn [fst] in Wi', Wj'.
        pose proof (proj1 (NRI _ _ _ Wi') Ni) as (A1 & A2 & A3). pose proof (proj1 (NRI _ _ _ Wj') Nj) as (B1 & B2 & B3).
        apply W in Wi', Wj'. pose proof (H i' j' ci cj (proj1 Wi') (proj1 Wj') A1 B1 A2 B2 A3 B3) as E. subst j'.
        unfold worklist in Wi, Wj. rewrite nth_error_enumerate in Wi, Wj.
        destruct (nth_error (combine (st_contexts s) d) i); [|discriminate].
        destruct (nth_error (combine (st_contexts s) d) j); [|discriminate]. injection Wi as <- _. injection Wj as <- _. reflexivity. }
    assert (ALL : forall seen, length seen = max_handles cf ->
      existsb (fun p => negb (ctx_state_eqb (c_state (fst p)) Inactive) && negb (snd p))%bool (combine (st_contexts s) seen) = false <->
      forall i c, at_slot s i c -> live c -> nth_error seen i = Some true).
    { intros seen Lseen. split.
      - intros H i c Hc Lc. destruct (nth_error seen i) as [b|] eqn:Eb.
        2:{ apply nth_error_None in Eb. apply at_lt in Hc. destruct R as [Ln _]. lia. }
        destruct b; [reflexivity|]. exfalso.
        assert (X : existsb (fun p => negb (ctx_state_eqb (c_state (fst p)) Inactive) && negb (snd p))%bool (combine (st_contexts s) seen) = true); [|congruence].
        apply existsb_exists. exists (c, false). split.
        + apply nth_error_In with (n := i). rewrite combine_nth. unfold at_slot in Hc. rewrite Hc, Eb. reflexivity.
        + cbn [fst snd negb]. rewrite andb_true_r. apply negb_true_iff, ctx_state_eqb_neq. exact Lc.
      - intros H. apply not_true_is_false. intros T. apply existsb_exists in T. destruct T as ([c b] & Hi & Hb).
        cbn [fst snd] in Hb. apply andb_true_iff in Hb. destruct Hb as [Lc Nb]. apply negb_true_iff, ctx_state_eqb_neq in Lc.
        apply negb_true_iff in Nb. subst b. apply In_nth_error in Hi. destruct Hi as [i Hi]. rewrite combine_nth in Hi.
        destruct (nth_error (st_contexts s) i) as [c'|] eqn:Ec; [|discriminate]. destruct (nth_error seen i) as [b|] eqn:Eb; [|discriminate].
        injection Hi as -> ->. rewrite (H i c Ec Lc) in Eb. discriminate. }
    split.
    - intros H. destruct (forest_dfs cf s (worklist s d) (repeat false (max_handles cf)) 0) as [[seen trees]|e|k] eqn:E; cbn [rbind] in H; [|discriminate..].
      destruct (Nat.ltb_spec 1 trees) as [X|X]; [discriminate|].
      apply (dfs_sound s R L) in E; [|exact WE|].
      2:{ split; [apply repeat_length|]. intros j Hj. exfalso. apply nth_error_In, repeat_spec in Hj. discriminate. }
      destruct E as [[Ls G] ET]. cbn [plus] in ET.
      destruct (existsb _ _) eqn:EX in H; [discriminate|]. pose proof (proj1 (ALL seen Ls) EX) as A.
      assert (GP : forall i c, at_slot s i c -> live c -> same_type_path s i) by (intros i c Hc Lc; exact (G i (A i c Hc Lc))).
      split; [|split].
      + apply forest_of_locals; [exact R|exact L|]. intros i (c & Hc & Lc). destruct (GP i c Hc Lc) as (l & Pl & _). exists l. exact Pl.
      + intros i c p Hc Lc Hp. destruct (GP i c Hc Lc) as (l & Pl & Ty).
        destruct (path_parent s i c l Pl Hc (slot_not_root s _ _ R Hp)) as (l' & -> & Pl').
        destruct (path_head _ _ _ Pl') as (l'' & ->).
        apply (Ty i (c_parent c) c p); [left; reflexivity|right; left; reflexivity|exact Hc|exact Hp].
      + apply ONE. lia.
    - intros (F & UT & OneN).
      destruct (dfs_result s R L (worklist s d) (repeat false (max_handles cf)) 0 WE WN) as [[(i & c & p & Hc & Lc & Hp & NT) _]|(seen & E & Ls & T & _)].
      { apply repeat_length. }
      { intros i c g j Hi Lc Rc Bj. apply nth_error_repeat. destruct Bj as (l & Pl & _).
        destruct (path_head _ _ _ Pl) as (l' & ->). destruct (path_live _ _ _ Pl j (or_introl eq_refl)) as (x & Hx & _).
        apply at_lt in Hx. destruct R as [Ln _]. lia. }
      { exfalso. exact (NT (UT i c p Hc Lc Hp)). }
      rewrite E. cbn [rbind plus].
      destruct (Nat.ltb_spec 1 (length (filter normal_root (worklist s d)))) as [X|X]; [apply ONE in OneN; lia|].
      assert (A : forall i c, at_slot s i c -> live c -> nth_error seen i = Some true).
      { intros i c Hc Lc. destruct (fo_acyclic _ _ F i) as (l & Pl); [exists c; auto|].
        destruct (path_has_root s i l Pl) as (r & cr & Ir & Hr & Lr & Rr).
        apply (T r cr (recorders s r) i); [|exact Lr|exact Rr|exists l; auto].
        apply nth_error_In with (n := r). apply W. auto. }
      apply (ALL seen Ls) in A. rewrite A. reflexivity.
  Qed.

  Theorem validate_dpe_iff s : representable cf s -> (validate_dpe cf s = Ok tt <-> acceptable cf s).
  Proof.
    intros R. unfold validate_dpe. pose proof (validate_dpe_state_iff s R) as HS.
    destruct (validate_dpe_state cf s) as [[]|e|k]; cbn [rbind].
    - pose proof (proj1 HS eq_refl) as (M & V & L & D). rewrite (validate_forest_iff s R L). split.
      + intros (F & UT & O). constructor; try assumption.
        * exact (lo_features s L).
        * intros i c Hc I. pose proof (lo_free s L i c Hc I). tauto.
        * exact (lo_locality s L).
        * exact (lo_initialized s L).
      + intros A. destruct A. auto.
    - split; [discriminate|]. intros A. exfalso. assert (X : Err e = Ok tt :> result unit); [|discriminate]. apply HS. destruct A as [M V F Ft Fr Lo In0 UT O D].
      split; [exact M|]. split; [exact V|]. split; [|exact D]. constructor; try assumption.
      + intros i c Hc I. split; [exact (fo_inactive _ _ F i c Hc I)|exact (Fr i c Hc I)].
      + intros i c Hc Lc. split; [exact (fo_up _ _ F i c Hc Lc)|]. intros j Hj. exact (proj2 (fo_down _ _ F i c j Hc Hj)).
      + exact (fo_retired _ _ F).
    - split; [discriminate|]. intros A. exfalso. assert (X : Crash k = Ok tt :> result unit); [|discriminate]. apply HS. destruct A as [M V F Ft Fr Lo In0 UT O D].
      split; [exact M|]. split; [exact V|]. split; [|exact D]. constructor; try assumption.
      + intros i c Hc I. split; [exact (fo_inactive _ _ F i c Hc I)|exact (Fr i c Hc I)].
      + intros i c Hc Lc. split; [exact (fo_up _ _ F i c Hc Lc)|]. intros j Hj. exact (proj2 (fo_down _ _ F i c j Hc Hj)).
      + exact (fo_retired _ _ F).
  Qed.

  (** *** Errors name real defects *)
  Definition reported (s : state) (r : result unit) : Prop :=
    r = Ok tt \/ exists e, r = Err (ValidationErr e) /\ defect cf s e.
  Lemma reported_ok s : reported s (Ok tt).
  Proof. left. reflexivity. Qed.
  Lemma reported_err s e : defect cf s e -> reported s (verr e).
  Proof. intros H. right. exists e. split; [reflexivity|exact H]. Qed.
  Lemma reported_bind s r f : reported s r -> (r = Ok tt -> reported s (f tt)) -> reported s (rbind r f).
  Proof.
    intros [->|(e & -> & D)] H; cbn [rbind]; [apply H; reflexivity|]. right. exists e. split; [reflexivity|exact D].
  Qed.
  Lemma reported_all {A} s (f : A -> result unit) l : (forall x, In x l -> reported s (f x)) -> reported s (all_ok f l).
  Proof.
    intros H. destruct (all_ok_cases f l) as [->|(x & Hx & -> & _)]; [left; reflexivity|]. exact (H x Hx).
  Qed.

  Lemma check_support_reported s i c : at_slot s i c -> reported s (check_support (st_support s) c).
  Proof.
    intros Hc. unfold check_support, sup_simulation, sup_internal_dice, sup_internal_info, sup_x509. rewrite !contains_bit.
    destruct (ctx_type_eqb (c_type c) Simulation) eqn:T; cbn [andb].
    1: apply ctx_type_eqb_eq in T; destruct (N.testbit (st_support s) 31) eqn:B; cbn [negb];
       [|apply reported_err; exists i, c; split; [exact Hc|]; split; [exact T|]; unfold supports, SIMULATION; congruence].
    all: destruct (c_dice c) eqn:D; cbn [andb].
    1,3: destruct (N.testbit (st_support s) 21) eqn:B2; cbn [negb];
       [|apply reported_err; exists i, c; split; [exact Hc|]; split; [exact D|]; unfold supports, INTERNAL_DICE; congruence].
    all: destruct (c_info c) eqn:I; cbn [andb].
    1,3,5,7: destruct (N.testbit (st_support s) 22) eqn:B3; cbn [negb];
       [|apply reported_err; exists i, c; split; [exact Hc|]; split; [exact I|]; unfold supports, INTERNAL_INFO; congruence].
    all: destruct (Nat.eqb_spec (c_parent c) ROOT) as [R|R]; cbn [negb andb]; try apply reported_ok;
      destruct (N.testbit (st_support s) 26) eqn:B4; cbn [negb andb]; try apply reported_ok;
      destruct (c_x509 c) eqn:X; try apply reported_ok;
      apply reported_err; exists i, c; (split; [exact Hc|split; [exact X|split; [exact R|unfold supports, X509; congruence]]]).
  Qed.

  Lemma inactive_reported s i c : at_slot s i c -> c_state c = Inactive -> reported s (validate_inactive_context cf c).
  Proof.
    intros Hc I. unfold validate_inactive_context, has_children, children_empty.
    destruct (Nat.eqb_spec (c_parent c) ROOT) as [R|R]; cbn [negb]; [|apply reported_err; exists i, c; auto].
    destruct (N.eqb_spec (c_children c) 0) as [K|K]; cbn [negb]; [|apply reported_err; exists i, c; auto].
    destruct (tci_eqb (c_tci c) (tci_new cf)) eqn:T; cbn [negb].
    - destruct (c_dice c) eqn:D, (c_x509 c) eqn:X, (c_info c) eqn:IN; cbn [orb]; try apply reported_ok; apply reported_err; exists i, c; auto.
    - apply reported_err. exists i, c. split; [exact Hc|]. split; [exact I|]. intros E.
      assert (tci_eqb (c_tci c) (tci_new cf) = true); [|congruence]. apply tci_eqb_eq. exact E.
  Qed.

  Lemma links_reported s i c : representable cf s -> at_slot s i c -> live c ->
    reported s (check_children_and_parent cf s i c).
  Proof.
    intros R Hc Lc. unfold check_children_and_parent. apply reported_bind.
    - destruct (Nat.eqb_spec (c_parent c) ROOT) as [E|E]; cbn [negb]; rewrite ?andb_false_r, ?andb_true_r; [apply reported_ok|].
      destruct (Nat.leb_spec (max_handles cf) (c_parent c)) as [G|G].
      { apply reported_err. exists i, c. repeat split; try assumption. intros p Hp. apply at_lt in Hp. rewrite (proj1 R) in Hp. lia. }
      unfold get_ctx. destruct (nth_error (st_contexts s) (c_parent c)) as [p|] eqn:Ep.
      2:{ apply reported_err. exists i, c. repeat split; try assumption. intros p Hp. unfold at_slot in Hp. congruence. }
      destruct (ctx_state_eqb (c_state p) Inactive) eqn:I.
      { apply ctx_state_eqb_eq in I. apply reported_err. exists i, c, p. auto 10. }
      apply ctx_state_eqb_neq in I. rewrite has_child_eq by exact Hcf.
      pose proof (at_lt _ _ _ Hc) as Lt. rewrite (proj1 R) in Lt. destruct (Nat.ltb_spec i (max_handles cf)) as [_|X]; [|lia]. cbn [andb].
      destruct (mem (c_children p) i) eqn:M; cbn [negb]; [apply reported_ok|]. apply reported_err. left. exists i, c, p.
      repeat split; try assumption. unfold has_bit. unfold mem in M. congruence.
    - intros _. apply reported_all. intros j Hj. rewrite flags_iter_spec in Hj by lia. apply filter_In in Hj. destruct Hj as [_ Hj].
      unfold get_ctx. destruct (nth_error (st_contexts s) j) as [d|] eqn:Ed.
      2:{ apply reported_err. exists i, c, j. repeat split; try assumption. intros d Hd. unfold at_slot in Hd. congruence. }
      destruct (ctx_state_eqb (c_state d) Inactive) eqn:I.
      { apply ctx_state_eqb_eq in I. apply reported_err. exists i, c, j, d. auto 10. }
      apply ctx_state_eqb_neq in I. destruct (Nat.eqb_spec (c_parent d) i) as [E|E]; cbn [negb]; [apply reported_ok|].
      apply reported_err. right. exists i, c, j, d. auto 10.
  Qed.

  Lemma validate_context_reported s i c : representable cf s -> at_slot s i c -> reported s (validate_context cf s (i, c)).
  Proof.
    intros R Hc. unfold validate_context. apply reported_bind; [exact (check_support_reported s i c Hc)|]. intros _.
    apply reported_bind.
    - destruct (c_state c) eqn:St.
      + exact (inactive_reported s i c Hc St).
      + destruct (ctx_type_eqb (c_type c) Normal) eqn:T; cbn [andb].
        * apply ctx_type_eqb_eq in T. destruct (st_init s) eqn:I; cbn [negb].
          -- apply links_reported; [exact R|exact Hc|unfold live; congruence].
          -- apply reported_err. exists i, c. auto.
        * apply links_reported; [exact R|exact Hc|unfold live; congruence].
      + apply reported_bind; [apply links_reported; [exact R|exact Hc|unfold live; congruence]|]. intros OK.
        apply (links_iff s i c R Hc) in OK. destruct (children_iter cf (c_children c)) as [|j l] eqn:EC; cbn [length Nat.eqb]; [|apply reported_ok].
        apply reported_err. exists i, c. split; [exact Hc|]. split; [exact St|]. intros j Hj.
        destruct (proj2 OK j Hj) as (d & Hd & _). apply at_lt in Hd. rewrite (proj1 R) in Hd.
        assert (X : In j (children_iter cf (c_children c))) by (apply in_children_iter; [exact Hcf|]; split; [exact Hd|exact Hj]).
        rewrite EC in X. destruct X.
    - intros _. destruct (N.eqb_spec (c_locality c) (tci_locality (c_tci c))) as [E|E]; cbn [negb]; [apply reported_ok|].
      apply reported_err. exists i, c. split; [exact Hc|congruence].
  Qed.

  Lemma locality_counts_reported loc s : forall l pre, st_contexts s = pre ++ l ->
    let d := length (filter (defaults loc) pre) in let k := length (filter (others loc) pre) in
    reported s (locality_counts loc l d k).
  Proof.
    assert (AD : forall c, defaults loc c = true <-> c_state c = Active /\ c_locality c = loc /\ c_handle c = repeat 0%N 16).
    { intros c. unfold defaults. rewrite andb_true_iff, active_in_iff, handle_is_default_eq. tauto. }
    assert (AO : forall c, others loc c = true <-> c_state c = Active /\ c_locality c = loc /\ c_handle c <> repeat 0%N 16).
    { intros c. unfold others. rewrite andb_true_iff, active_in_iff, negb_true_iff, handle_is_default_neq. tauto. }
    induction l as [|c l IH]; intros pre E d k; cbn [locality_counts]; [apply reported_ok|].
    assert (E' : st_contexts s = (pre ++ [c]) ++ l) by (rewrite <- app_assoc; exact E).
    specialize (IH (pre ++ [c]) E'). cbv zeta in IH. rewrite !filter_app, !app_length in IH. cbn [filter] in IH.
    assert (Q : (if active_in loc c then if handle_is_default (c_handle c) then (S d, k) else (d, S k) else (d, k)) =
      (length (filter (defaults loc) pre) + length (if defaults loc c then [c] else []),
       length (filter (others loc) pre) + length (if others loc c then [c] else []))).
    { unfold defaults at 2, others at 2. fold d k. destruct (active_in loc c), (handle_is_default (c_handle c)); cbn [andb negb length]; f_equal; lia. }
    rewrite Q. clear Q. cbv iota.
    assert (LD : length (filter (defaults loc) pre) + length (if defaults loc c then [c] else []) = length (filter (defaults loc) (pre ++ [c]))).
    { rewrite filter_app, app_length. reflexivity. }
    assert (LO : length (filter (others loc) pre) + length (if others loc c then [c] else []) = length (filter (others loc) (pre ++ [c]))).
    { rewrite filter_app, app_length. reflexivity. }
    assert (InS : forall x, In x (pre ++ [c]) -> In x (st_contexts s)) by (intros x Hx; rewrite E'; apply in_app_iff; left; exact Hx).
    destruct (Nat.ltb_spec 1 (length (filter (defaults loc) pre) + length (if defaults loc c then [c] else []))) as [X|X].
    - apply reported_err. rewrite LD in X.
      destruct (classic_two (defaults loc) (pre ++ [c])) as (i & j & x & y & Hi & Hj & N & Dx & Dy); [lia|].
      apply AD in Dx, Dy. destruct Dx as (? & ? & ?), Dy as (? & ? & ?).
      assert (At : forall n z, nth_error (pre ++ [c]) n = Some z -> at_slot s n z).
      { intros n z Hz. unfold at_slot. rewrite E'. rewrite (nth_error_app1 (pre ++ [c]) l) by (apply nth_error_Some; congruence). exact Hz. }
      exists i, j, x, y. repeat split; try congruence; apply At; assumption.
    - destruct (Nat.ltb_spec 0 (length (filter (defaults loc) pre) + length (if defaults loc c then [c] else []))) as [Y|Y]; cbn [andb]; [|exact IH].
      destruct (Nat.ltb_spec 0 (length (filter (others loc) pre) + length (if others loc c then [c] else []))) as [Z|Z]; [|exact IH].
      apply reported_err. rewrite LD in Y. rewrite LO in Z.
      destruct (filter (defaults loc) (pre ++ [c])) as [|x lx] eqn:Ex; [cbn in Y; lia|].
      destruct (filter (others loc) (pre ++ [c])) as [|y ly] eqn:Ey; [cbn in Z; lia|].
      assert (Ix : In x (filter (defaults loc) (pre ++ [c]))) by (rewrite Ex; left; reflexivity).
      assert (Iy : In y (filter (others loc) (pre ++ [c]))) by (rewrite Ey; left; reflexivity).
      apply filter_In in Ix, Iy. destruct Ix as [Ix Dx], Iy as [Iy Dy]. apply InS, In_nth_error in Ix. apply InS, In_nth_error in Iy.
      destruct Ix as [i Hi], Iy as [j Hj]. apply AD in Dx. apply AO in Dy. destruct Dx as (? & ? & ?), Dy as (? & ? & ?).
      exists i, j, x, y. repeat split; try assumption; congruence.
  Qed.

  Lemma validate_dpe_state_reported s : representable cf s -> reported s (validate_dpe_state cf s).
  Proof.
    intros R. unfold validate_dpe_state. change state_magic with 0x44504553%N. change state_version with 1%N.
    destruct (N.eqb_spec (st_marker s) 0x44504553) as [M|M]; cbn [negb]; [|apply reported_err; exact M].
    destruct (N.eqb_spec (st_version s) 1) as [V|V]; cbn [negb]; [|apply reported_err; exact V].
    apply reported_bind.
    - apply reported_all. intros [i c] Hi. apply in_enumerate in Hi. exact (validate_context_reported s i c R Hi).
    - intros _. unfold check_context_handles_per_locality. apply reported_all. intros c _.
      exact (locality_counts_reported (c_locality c) s (st_contexts s) [] eq_refl).
  Qed.

  Lemma worklist_index s d : forall x, In x (worklist s d) -> nth_error (worklist s d) (fst x) = Some x.
  Proof.
    intros [i y] Hx. cbn [fst]. apply In_nth_error in Hx. destruct Hx as [k Hk]. unfold worklist in Hk. rewrite nth_error_enumerate in Hk.
    destruct (nth_error (combine (st_contexts s) d) k) eqn:Ek; [|discriminate]. injection Hk as <- <-.
    unfold worklist. rewrite nth_error_enumerate, Ek. reflexivity.
  Qed.

  Lemma validate_forest_reported s : representable cf s -> locally_ok s -> reported s (validate_context_forest cf s).
  Proof.
    intros R L. unfold validate_context_forest.
    destruct (in_degrees_ok s) as (d & Ed & Ld & Hd). rewrite Ed. cbn [rbind].
    assert (EX : existsb (Nat.ltb 1) d = false).
    { apply not_true_is_false. intros T. apply existsb_exists in T. destruct T as (n & In_n & Hn). apply Nat.ltb_lt in Hn.
      apply In_nth_error in In_n. destruct In_n as [i Hi]. assert (Lt : i < max_handles cf) by (rewrite <- Ld; apply nth_error_Some; congruence).
      rewrite (Hd i Lt) in Hi. injection Hi as <-. pose proof (recorders_le s i L). lia. }
    rewrite EX. clear EX. fold (worklist s d).
    pose proof (worklist_in s d R Ld Hd) as W. pose proof (worklist_index s d) as WI.
    assert (WE : forall x, In x (worklist s d) -> entry s x).
    { intros [i [c g]] Hx. apply WI in Hx. cbn [fst] in Hx. apply W in Hx. exact Hx. }
    assert (WN : NoDup (map fst (worklist s d))) by (unfold worklist; rewrite map_fst_enumerate; apply seq_NoDup).
    destruct (dfs_result s R L (worklist s d) (repeat false (max_handles cf)) 0 WE WN) as [[M E]|(seen & E & Ls & T & K)].
    { apply repeat_length. }
    { intros i c g j Hi Lc Rc Bj. apply nth_error_repeat. destruct Bj as (l & Pl & _).
      destruct (path_head _ _ _ Pl) as (l' & ->). destruct (path_live _ _ _ Pl j (or_introl eq_refl)) as (x & Hx & _).
      apply at_lt in Hx. destruct R as [Ln _]. lia. }
    { rewrite E. right. exists MixedContextTypeConnectedComponents. split; [reflexivity|exact M]. }
    rewrite E. cbn [rbind plus].
    destruct (Nat.ltb_spec 1 (length (filter normal_root (worklist s d)))) as [X|X].
    { apply reported_err. destruct (classic_two normal_root (worklist s d)) as (i & j & x & y & Hi & Hj & N & Nx & Ny); [lia|].
      assert (Ex : fst x = i /\ fst y = j).
      { unfold worklist in Hi, Hj. rewrite nth_error_enumerate in Hi, Hj.
        destruct (nth_error (combine (st_contexts s) d) i); [|discriminate].
        destruct (nth_error (combine (st_contexts s) d) j); [|discriminate]. injection Hi as <-. injection Hj as <-. split; reflexivity. }
      destruct x as [i' [c g]], y as [j' [c' g']]. cbn [fst] in Ex. destruct Ex as [-> ->]. apply W in Hi, Hj.
      destruct Hi as [Hi Gi], Hj as [Hj Gj]. unfold normal_root in Nx, Ny. cbn [fst snd] in Nx, Ny.
      rewrite !andb_true_iff, negb_true_iff, Nat.eqb_eq, ctx_state_eqb_neq, ctx_type_eqb_eq in Nx, Ny.
      destruct Nx as [[Z1 L1] T1], Ny as [[Z2 L2] T2]. exists i, j, c, c'.
      repeat split; try assumption.
      - apply (recorders_zero s i c R L Hi L1). congruence.
      - apply (recorders_zero s j c' R L Hj L2). congruence. }
    destruct (existsb _ _) eqn:EX; [|apply reported_ok]. apply reported_err.
    apply existsb_exists in EX. destruct EX as ([c b] & Hi & Hb).
    cbn [fst snd] in Hb. apply andb_true_iff in Hb. destruct Hb as [Lc Nb]. apply negb_true_iff, ctx_state_eqb_neq in Lc.
    apply negb_true_iff in Nb. subst b. apply In_nth_error in Hi. destruct Hi as [i Hi]. rewrite combine_nth in Hi.
    destruct (nth_error (st_contexts s) i) as [c'|] eqn:Ec; [|discriminate]. destruct (nth_error seen i) as [b|] eqn:Eb; [|discriminate].
    injection Hi as -> ->. exists i. split; [exists c; auto|]. intros l Pl.
    destruct (path_has_root s i l Pl) as (r & cr & Ir & Hr & Lr & Rr).
    rewrite (T r cr (recorders s r) i) in Eb; [discriminate| |exact Lr|exact Rr|exists l; auto].
    apply nth_error_In with (n := r). apply W. auto.
  Qed.

  Theorem validate_dpe_reported s : representable cf s -> reported s (validate_dpe cf s).
  Proof.
    intros R. unfold validate_dpe. apply reported_bind; [exact (validate_dpe_state_reported s R)|]. intros E.
    apply (validate_dpe_state_iff s R) in E. apply validate_forest_reported; tauto.
  Qed.

  (** *** Well-formed states *)
  Theorem acceptable_wf s : wf cf s -> (forall loc, lone_default s loc) -> acceptable cf s.
  Proof.
    intros W D. pose proof (wf_forest _ _ W) as F. constructor.
    - exact (wf_marker _ _ W).
    - exact (wf_version _ _ W).
    - exact F.
    - intros i c Hc. destruct (wf_slot _ _ W i c Hc). auto.
    - intros i c Hc I. destruct (so_free _ _ _ (wf_slot _ _ W i c Hc) I) as (_ & T & K & _ & _ & A & B & C & _). auto.
    - intros i c Hc. exact (so_tci_locality _ _ _ (wf_slot _ _ W i c Hc)).
    - intros i c Hc A T. apply (wf_initialized _ _ W i c Hc); [unfold live; congruence|exact T].
    - intros i c p Hc Lc Hp. exact (proj1 (wf_inherits _ _ W i c (c_parent c) p Hc Lc eq_refl Hp)).
    - exact (wf_one_normal_root _ _ W).
    - exact D.
  Qed.
  Lemma wf_representable s : wf cf s -> representable cf s.
  Proof.
    intros W. pose proof (wf_forest _ _ W) as F. split; [exact (fo_size _ _ F)|]. intros i c Hc.
    destruct (N.lt_ge_cases (c_children c) (2 ^ 64)) as [H|H]; [exact H|exfalso].
    assert (P : (0 < c_children c)%N) by lia.
    pose proof (N.log2_spec (c_children c) P) as [Lo Hi].
    assert (B : N.testbit (c_children c) (N.log2 (c_children c)) = true) by (apply N.bit_log2; lia).
    assert (Hb : has_bit (c_children c) (N.to_nat (N.log2 (c_children c)))) by (unfold has_bit; rewrite N2Nat.id; exact B).
    destruct (fo_down _ _ F i c _ Hc Hb) as (_ & d & Hd & _). apply at_lt in Hd. rewrite (fo_size _ _ F) in Hd.
    assert (N.log2 (2 ^ 64) <= N.log2 (c_children c))%N by (apply N.log2_le_mono; exact H).
    rewrite N.log2_pow2 in H0 by lia. pose proof Hcf as K. unfold config_ok in K. lia.
  Qed.
End Proofs.
