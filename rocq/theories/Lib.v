(** Lib.v -- generic lemmas: lists, byte strings, endianness, child bitmaps. *)
From Coq Require Import ZifyBool ZifyNat ZifyN.
From Verif Require Import Base Errors Types StateOps.
Ltac Zify.zify_post_hook ::= Z.div_mod_to_equations.
Local Open Scope nat_scope.

(** ** Lists *)

Lemma length_upd {A} (l : list A) i x : length (upd l i x) = length l.
Proof. revert i; induction l as [|a l IH]; intros [|i]; cbn; auto. Qed.

Lemma nth_error_upd_eq {A} (l : list A) i x :
  i < length l -> nth_error (upd l i x) i = Some x.
Proof.
  revert i; induction l as [|a l IH]; intros [|i] H; cbn in *; try lia; auto.
  apply IH; lia.
Qed.

Lemma nth_error_upd_ne {A} (l : list A) i j x :
  i <> j -> nth_error (upd l i x) j = nth_error l j.
Proof.
  revert i j; induction l as [|a l IH]; intros [|i] [|j] H; cbn; auto; try lia.
Qed.

Lemma nth_error_upd {A} (l : list A) i j x :
  nth_error (upd l i x) j =
  if Nat.eqb i j then (if Nat.ltb j (length l) then Some x else None)
  else nth_error l j.
Proof.
  destruct (Nat.eqb_spec i j) as [->|Hne].
  - destruct (Nat.ltb_spec j (length l)) as [Hl|Hl].
    + apply nth_error_upd_eq; exact Hl.
    + apply nth_error_None; rewrite length_upd; exact Hl.
  - apply nth_error_upd_ne; exact Hne.
Qed.

Lemma upd_same {A} (l : list A) i x : nth_error l i = Some x -> upd l i x = l.
Proof.
  revert i; induction l as [|a l IH]; intros [|i] H; cbn in *; try congruence.
  f_equal; apply IH; exact H.
Qed.

Lemma list_ext {A} (l1 l2 : list A) :
  (forall i, nth_error l1 i = nth_error l2 i) -> l1 = l2.
Proof.
  revert l2; induction l1 as [|a l1 IH]; intros [|b l2] H; auto.
  - specialize (H 0); discriminate.
  - specialize (H 0); discriminate.
  - f_equal.
    + specialize (H 0); cbn in H; congruence.
    + apply IH; intros i; exact (H (S i)).
Qed.

Lemma nth_error_lt {A} (l : list A) i x : nth_error l i = Some x -> i < length l.
Proof. intros H; apply nth_error_Some; congruence. Qed.

Lemma nth_error_ex {A} (l : list A) i : i < length l -> exists x, nth_error l i = Some x.
Proof.
  intros H; destruct (nth_error l i) as [x|] eqn:E; [eauto|].
  apply nth_error_None in E; lia.
Qed.

Lemma nth_error_repeat_iff {A} (a : A) n i x :
  nth_error (repeat a n) i = Some x <-> i < n /\ x = a.
Proof.
  revert i; induction n as [|n IH]; intros [|i]; cbn.
  - split; [discriminate|lia].
  - split; [discriminate|lia].
  - split; [intros H; inversion H; split; auto; lia|intros [_ ->]; reflexivity].
  - rewrite IH. split; intros [H1 H2]; split; auto; lia.
Qed.

Lemma nth_error_enumerate {A} (l : list A) i :
  nth_error (enumerate l) i = option_map (pair i) (nth_error l i).
Proof.
  unfold enumerate.
  assert (G : forall k, nth_error (combine (seq k (length l)) l) i
                        = option_map (pair (k + i)) (nth_error l i)).
  { revert i; induction l as [|a l IH]; intros [|i] k; cbn; auto.
    - rewrite Nat.add_0_r; reflexivity.
    - rewrite IH; do 2 f_equal; lia. }
  exact (G 0).
Qed.

Lemma length_enumerate {A} (l : list A) : length (enumerate l) = length l.
Proof. unfold enumerate; rewrite combine_length, seq_length; lia. Qed.

Lemma in_enumerate {A} (l : list A) i x : In (i, x) (enumerate l) <-> nth_error l i = Some x.
Proof.
  split.
  - intros H; apply In_nth_error in H as [n Hn]; rewrite nth_error_enumerate in Hn.
    destruct (nth_error l n) as [y|] eqn:E; cbn in Hn; inversion Hn; subst; exact E.
  - intros H; apply nth_error_In with (n := i); rewrite nth_error_enumerate, H; reflexivity.
Qed.

Lemma filter_ext_in {A} (f g : A -> bool) l :
  (forall x, In x l -> f x = g x) -> filter f l = filter g l.
Proof.
  induction l as [|a l IH]; cbn; intros H; [reflexivity|].
  rewrite (H a (or_introl eq_refl)), IH; [reflexivity|].
  intros x Hx; apply H; right; exact Hx.
Qed.

Lemma filter_filter {A} (f g : A -> bool) l :
  filter f (filter g l) = filter (fun x => g x && f x) l.
Proof.
  induction l as [|a l IH]; cbn; [reflexivity|].
  destruct (g a); cbn; [destruct (f a); rewrite IH; reflexivity|exact IH].
Qed.

Lemma find_filter_hd {A} (f : A -> bool) l :
  find f l = hd_error (filter f l).
Proof. induction l as [|a l IH]; cbn; [reflexivity|]. destruct (f a); [reflexivity|exact IH]. Qed.

Lemma position_Some {A} (f : A -> bool) l i :
  position f l = Some i <->
  (exists x, nth_error l i = Some x /\ f x = true) /\
  (forall j x, j < i -> nth_error l j = Some x -> f x = false).
Proof.
  revert i; induction l as [|a l IH]; intros i; cbn.
  - split; [discriminate|]. intros [[x [Hx _]] _]; destruct i; discriminate.
  - destruct (f a) eqn:Ea.
    + split.
      * intros H; inversion H; subst; split; [exists a; auto|intros j x Hj; lia].
      * intros [[x [Hx Hf]] Hall]; destruct i as [|i]; [reflexivity|].
        specialize (Hall 0 a ltac:(lia) eq_refl); congruence.
    + destruct (position f l) as [k|] eqn:Ek; cbn.
      * split.
        -- intros H; inversion H; subst; clear H.
           destruct (proj1 (IH k) eq_refl) as [Hx Hall]; split; [exact Hx|].
           intros [|j] x Hj Hn; cbn in Hn; [congruence|]. apply (Hall j x); [lia|exact Hn].
        -- intros [[x [Hx Hf]] Hall]. destruct i as [|i]; cbn in Hx; [congruence|].
           assert (E : Some k = Some i); [|congruence].
           apply IH; split; [eauto|].
           intros j y Hj Hn; apply (Hall (S j) y); [lia|exact Hn].
      * split; [discriminate|]. intros [[x [Hx Hf]] Hall].
        destruct i as [|i]; cbn in Hx; [congruence|].
        assert (E : @None nat = Some i); [|discriminate].
        apply IH; split; [eauto|].
        intros j y Hj Hn; apply (Hall (S j) y); [lia|exact Hn].
Qed.

Lemma position_None {A} (f : A -> bool) l :
  position f l = None <-> forall x, In x l -> f x = false.
Proof.
  induction l as [|a l IH]; cbn; [split; [tauto|reflexivity]|].
  destruct (f a) eqn:Ea.
  - split; [discriminate|]. intros H; rewrite (H a) in Ea; [discriminate|auto].
  - destruct (position f l) as [k|]; cbn.
    + split; [discriminate|]. intros H.
      assert (E : Some k = None); [|discriminate]. apply IH; auto.
    + split; [|reflexivity]. intros _ x [->|Hx]; [exact Ea|]. apply IH; auto.
Qed.

(** ** Byte strings *)

Lemma bytes_eqb_eq a b : bytes_eqb a b = true <-> a = b.
Proof.
  revert b; induction a as [|x a IH]; intros [|y b]; cbn; split; intros H;
    try congruence; try reflexivity.
  - apply andb_true_iff in H as [H1 H2]. apply N.eqb_eq in H1. apply IH in H2. congruence.
  - inversion H; subst. rewrite N.eqb_refl; cbn. apply IH; reflexivity.
Qed.

Lemma bytes_eqb_refl a : bytes_eqb a a = true.
Proof. apply bytes_eqb_eq; reflexivity. Qed.

Lemma bytes_eqb_neq a b : bytes_eqb a b = false <-> a <> b.
Proof.
  split.
  - intros H ->; rewrite bytes_eqb_refl in H; discriminate.
  - intros H; destruct (bytes_eqb a b) eqn:E; [apply bytes_eqb_eq in E; contradiction|reflexivity].
Qed.

Lemma bytes_eq_dec (a b : bytes) : {a = b} + {a <> b}.
Proof.
  destruct (bytes_eqb a b) eqn:E; [left; apply bytes_eqb_eq; exact E
                                  |right; apply bytes_eqb_neq; exact E].
Qed.

Lemma length_to_buf n l : length (to_buf n l) = n.
Proof.
  unfold to_buf; rewrite map_length, firstn_length, app_length, repeat_length; lia.
Qed.

Lemma all_bytes_to_buf n l : all_bytes (to_buf n l).
Proof.
  unfold to_buf, all_bytes, is_byte; apply Forall_forall; intros b Hb.
  apply in_map_iff in Hb as [x [<- _]]. apply N.mod_lt; discriminate.
Qed.

Lemma to_buf_id n l : length l = n -> all_bytes l -> to_buf n l = l.
Proof.
  intros Hl Hb; unfold to_buf. rewrite firstn_app, Hl, Nat.sub_diag, firstn_O, app_nil_r.
  rewrite firstn_all2 by lia. clear Hl. induction Hb as [|x l Hx Hb IH]; cbn; [reflexivity|].
  rewrite IH, N.mod_small; [reflexivity|exact Hx].
Qed.

Lemma length_le_bytes n v : length (le_bytes n v) = n.
Proof. revert v; induction n as [|n IH]; intros v; cbn; auto. Qed.

Lemma all_bytes_le_bytes n v : all_bytes (le_bytes n v).
Proof.
  revert v; induction n as [|n IH]; intros v; cbn; constructor.
  - apply N.mod_lt; discriminate.
  - apply IH.
Qed.

Lemma le_val_le_bytes n v : (v < 256 ^ N.of_nat n)%N -> le_val (le_bytes n v) = v.
Proof.
  revert v; induction n as [|n IH]; intros v Hv; cbn [le_bytes le_val].
  - change (256 ^ N.of_nat 0)%N with 1%N in Hv; lia.
  - rewrite IH.
    + pose proof (N.div_mod v 256 ltac:(discriminate)); lia.
    + apply N.div_lt_upper_bound; [discriminate|].
      replace (N.of_nat (S n)) with (N.succ (N.of_nat n)) in Hv by lia.
      rewrite N.pow_succ_r' in Hv. lia.
Qed.

Lemma le_bytes_le_val l : all_bytes l -> le_bytes (length l) (le_val l) = l.
Proof.
  induction l as [|b l IH]; intros H; cbn [length le_bytes le_val]; [reflexivity|].
  inversion H as [|? ? Hb Hl]; subst. unfold is_byte in Hb.
  rewrite (N.add_comm b), (N.mul_comm 256). rewrite N.div_add_l, (N.div_small b), N.add_0_r by lia.
  rewrite N.add_comm, N.mod_add, N.mod_small by lia. rewrite IH; auto.
Qed.

Lemma le_val_bound l : all_bytes l -> (le_val l < 256 ^ N.of_nat (length l))%N.
Proof.
  induction l as [|b l IH]; intros H.
  - cbn; lia.
  - cbn [length le_val]. inversion H as [|? ? Hb Hl]; subst. unfold is_byte in Hb.
    specialize (IH Hl). replace (N.of_nat (S (length l))) with (N.succ (N.of_nat (length l))) by lia.
    rewrite N.pow_succ_r'. lia.
Qed.

Lemma le_bytes_inj n v1 v2 :
  (v1 < 256 ^ N.of_nat n)%N -> (v2 < 256 ^ N.of_nat n)%N ->
  le_bytes n v1 = le_bytes n v2 -> v1 = v2.
Proof. intros H1 H2 H. rewrite <- (le_val_le_bytes n v1), <- (le_val_le_bytes n v2) by assumption. congruence. Qed.

Lemma app_inj_length {A} (a b c d : list A) :
  length a = length c -> a ++ b = c ++ d -> a = c /\ b = d.
Proof.
  revert c; induction a as [|x a IH]; intros [|y c] Hl H; cbn in *; try lia.
  - auto.
  - inversion H; subst. destruct (IH c) as [-> ->]; auto.
Qed.

(** ** Enumeration equality tests *)

Lemma ctx_state_eqb_eq a b : ctx_state_eqb a b = true <-> a = b.
Proof. destruct a, b; cbn; split; congruence. Qed.
Lemma ctx_state_eqb_neq a b : ctx_state_eqb a b = false <-> a <> b.
Proof. destruct a, b; cbn; split; congruence. Qed.
Lemma ctx_type_eqb_eq a b : ctx_type_eqb a b = true <-> a = b.
Proof. destruct a, b; cbn; split; congruence. Qed.
Lemma ctx_type_eqb_neq a b : ctx_type_eqb a b = false <-> a <> b.
Proof. destruct a, b; cbn; split; congruence. Qed.
Lemma handle_eqb_eq a b : handle_eqb a b = true <-> a = b.
Proof. apply bytes_eqb_eq. Qed.
Lemma handle_eqb_neq a b : handle_eqb a b = false <-> a <> b.
Proof. apply bytes_eqb_neq. Qed.
Lemma handle_is_default_eq h : handle_is_default h = true <-> h = default_handle.
Proof. apply bytes_eqb_eq. Qed.
Lemma handle_is_default_neq h : handle_is_default h = false <-> h <> default_handle.
Proof. apply bytes_eqb_neq. Qed.
Lemma tci_eqb_eq a b : tci_eqb a b = true <-> a = b.
Proof.
  unfold tci_eqb; rewrite !andb_true_iff, !N.eqb_eq, !bytes_eqb_eq.
  destruct a, b; cbn; split; [intros [[[[-> ->] ->] ->] ->]; reflexivity|].
  intros H; inversion H; auto.
Qed.
Lemma invalid_not_default : invalid_handle <> default_handle.
Proof. discriminate. Qed.

(** ** Child bitmaps *)

Definition mem (ch : N) (i : nat) : bool := N.testbit ch (N.of_nat i).

Lemma testbit_shl1 i j : N.testbit (N.shiftl 1 (N.of_nat i)) (N.of_nat j) = Nat.eqb i j.
Proof.
  rewrite N.shiftl_1_l, N.pow2_bits_eqb.
  destruct (Nat.eqb_spec i j) as [->|H]; [apply N.eqb_refl|]. apply N.eqb_neq; lia.
Qed.

Lemma pos_ctz_true p : N.testbit (Npos p) (N.of_nat (pos_ctz p)) = true.
Proof.
  induction p as [p IH|p IH|]; cbn [pos_ctz]; [reflexivity| |reflexivity].
  replace (N.of_nat (S (pos_ctz p))) with (N.succ (N.of_nat (pos_ctz p))) by lia.
  change (Npos (xO p)) with (N.double (Npos p)). rewrite N.double_bits_succ. exact IH.
Qed.

Lemma pos_ctz_low p j : (j < pos_ctz p) -> N.testbit (Npos p) (N.of_nat j) = false.
Proof.
  revert j; induction p as [p IH|p IH|]; cbn [pos_ctz]; intros j Hj; try lia.
  destruct j as [|j]; [reflexivity|].
  replace (N.of_nat (S j)) with (N.succ (N.of_nat j)) by lia.
  change (Npos (xO p)) with (N.double (Npos p)). rewrite N.double_bits_succ. apply IH; lia.
Qed.

Lemma trailing_zeros_eq v k :
  N.testbit v (N.of_nat k) = true ->
  (forall j, j < k -> N.testbit v (N.of_nat j) = false) ->
  trailing_zeros v = k.
Proof.
  destruct v as [|p]; cbn [trailing_zeros]; [rewrite N.bits_0; discriminate|].
  intros Hk Hlow.
  destruct (lt_eq_lt_dec (pos_ctz p) k) as [[H|H]|H]; [|exact H|].
  - pose proof (pos_ctz_true p) as T.
    rewrite (Hlow _ H) in T; discriminate.
  - rewrite (pos_ctz_low p k H) in Hk; discriminate.
Qed.

Lemma N_zero_bits v : (forall j, N.testbit v (N.of_nat j) = false) -> v = 0%N.
Proof.
  intros H; apply N.bits_inj; intros n. rewrite N.bits_0.
  rewrite <- (N2Nat.id n). apply H.
Qed.

Lemma flags_iter_go_filter n : forall m k v,
  n <= m ->
  (forall i, N.testbit v (N.of_nat i) = true -> k <= i < k + n) ->
  flags_iter_go m v = filter (mem v) (seq k n).
Proof.
  induction n as [|n IH]; intros m k v Hm Hb.
  - assert (v = 0%N) as ->.
    { apply N_zero_bits; intros j. destruct (N.testbit v (N.of_nat j)) eqn:E; [|reflexivity].
      specialize (Hb j E); lia. }
    destruct m; reflexivity.
  - cbn [seq filter]. unfold mem at 1. destruct (N.testbit v (N.of_nat k)) eqn:Ek.
    + destruct m as [|m]; [lia|]. cbn [flags_iter_go].
      destruct (N.eqb_spec v 0) as [->|Hv]; [rewrite N.bits_0 in Ek; discriminate|].
      assert (T : trailing_zeros v = k).
      { apply trailing_zeros_eq; [exact Ek|]. intros j Hj.
        destruct (N.testbit v (N.of_nat j)) eqn:E; [|reflexivity]. specialize (Hb j E); lia. }
      rewrite T. f_equal.
      rewrite (IH m (S k)); [|lia|].
      * apply filter_ext_in. intros x Hx. apply in_seq in Hx. unfold mem.
        rewrite N.ldiff_spec, testbit_shl1.
        destruct (Nat.eqb_spec k x); [lia|]. cbn. apply andb_true_r.
      * intros i Hi. rewrite N.ldiff_spec, testbit_shl1 in Hi.
        apply andb_true_iff in Hi as [H1 H2]. specialize (Hb i H1).
        destruct (Nat.eqb_spec k i); [discriminate|]. lia.
    + apply IH; [lia|]. intros i Hi. specialize (Hb i Hi).
      assert (i <> k) by (intros ->; congruence). lia.
Qed.

Lemma mask_bits mx i :
  1 <= mx <= 64 ->
  N.testbit (N.shiftr u64_max (64 - N.of_nat mx)) (N.of_nat i) = Nat.ltb i mx.
Proof.
  intros H. change u64_max with (N.ones 64).
  rewrite N.shiftr_spec by lia.
  destruct (Nat.ltb_spec i mx).
  - apply N.ones_spec_low; lia.
  - apply N.ones_spec_high; lia.
Qed.

Lemma flags_iter_spec v mx :
  1 <= mx <= 64 -> flags_iter v mx = filter (mem v) (seq 0 mx).
Proof.
  intros H; unfold flags_iter. rewrite (flags_iter_go_filter mx _ 0).
  - apply filter_ext_in. intros x Hx; apply in_seq in Hx. unfold mem.
    rewrite N.land_spec, mask_bits by assumption.
    destruct (Nat.ltb_spec x mx); [apply andb_true_r|lia].
  - lia.
  - intros i Hi. rewrite N.land_spec, mask_bits in Hi by assumption.
    apply andb_true_iff in Hi as [_ Hi]. apply Nat.ltb_lt in Hi. lia.
Qed.

Section Cfg.
  Variable cf : config.
  Hypothesis Hcf : config_ok cf.

  Lemma children_iter_eq ch :
    children_iter cf ch = filter (mem ch) (seq 0 (max_handles cf)).
  Proof. apply flags_iter_spec. apply Hcf. Qed.

  Lemma in_children_iter ch i :
    In i (children_iter cf ch) <-> i < max_handles cf /\ mem ch i = true.
  Proof. rewrite children_iter_eq, filter_In, in_seq. split; intros [H1 H2]; split; auto; lia. Qed.

  Lemma NoDup_children_iter ch : NoDup (children_iter cf ch).
  Proof. rewrite children_iter_eq. apply NoDup_filter, seq_NoDup. Qed.

  Lemma has_child_eq ch i :
    has_child cf ch i = (Nat.ltb i (max_handles cf) && mem ch i)%bool.
  Proof.
    unfold has_child, mem. destruct (Nat.leb_spec (max_handles cf) i), (Nat.ltb_spec i (max_handles cf));
      try lia; cbn [negb andb]; try reflexivity.
    destruct (N.testbit ch (N.of_nat i)) eqn:E.
    - destruct (N.eqb_spec (N.land ch (N.shiftl 1 (N.of_nat i))) 0) as [Z|]; [|reflexivity].
      exfalso. assert (T : N.testbit (N.land ch (N.shiftl 1 (N.of_nat i))) (N.of_nat i) = true).
      { rewrite N.land_spec, testbit_shl1, Nat.eqb_refl, E; reflexivity. }
      rewrite Z, N.bits_0 in T; discriminate.
    - destruct (N.eqb_spec (N.land ch (N.shiftl 1 (N.of_nat i))) 0) as [|Z]; [reflexivity|].
      exfalso; apply Z. apply N_zero_bits. intros j.
      rewrite N.land_spec, testbit_shl1. destruct (Nat.eqb_spec i j) as [<-|]; [rewrite E; reflexivity|].
      apply andb_false_r.
  Qed.

  Lemma mem_lor a b i : mem (N.lor a b) i = mem a i || mem b i.
  Proof. apply N.lor_spec. Qed.
  Lemma mem_ldiff a b i : mem (N.ldiff a b) i = mem a i && negb (mem b i).
  Proof. apply N.ldiff_spec. Qed.
  Lemma mem_bit i j : mem (N.shiftl 1 (N.of_nat i)) j = Nat.eqb i j.
  Proof. apply testbit_shl1. Qed.
  Lemma mem_0 i : mem 0 i = false.
  Proof. apply N.bits_0. Qed.

  Lemma children_add_eq ch i :
    children_add cf ch i =
    if Nat.ltb i (max_handles cf) then Ok (N.lor ch (N.shiftl 1 (N.of_nat i)))
    else Err (InternalError ChildrenBitmapIndexOob).
  Proof.
    unfold children_add. destruct (Nat.leb_spec (max_handles cf) i), (Nat.ltb_spec i (max_handles cf));
      try lia; reflexivity.
  Qed.

  Lemma mem_ext a b : (forall i, mem a i = mem b i) -> a = b.
  Proof.
    intros H; apply N.bits_inj; intros n. rewrite <- (N2Nat.id n). apply H.
  Qed.

  Lemma has_children_false ch : has_children ch = false <-> forall i, mem ch i = false.
  Proof.
    unfold has_children, children_empty. destruct (N.eqb_spec ch 0) as [->|Hz]; cbn [negb]; split.
    - intros _ i; apply mem_0.
    - reflexivity.
    - discriminate.
    - intros H; exfalso; apply Hz, N_zero_bits; exact H.
  Qed.
End Cfg.
