(** X509Run.v -- what running an encoder of X509.v does to the buffer, stated
    with the byte strings the encoders stand for. *)
From Verif Require Import Base Errors Types StateOps Env Lib Der DerProofs X509.
Open Scope N_scope.

Arguments cw_buf {C} _. Arguments cw_off {C} _. Arguments cw_csr {C} _.
Arguments cw_back {C} _. Arguments cw_saved {C} _. Arguments cw_c {C} _.
Arguments mkCw {C} _ _ _ _ _ _. Arguments cw_new {C} _ _.
Arguments wret {C A} _ _. Arguments wlift {C A} _ _. Arguments wbind {C A B} _ _ _.
Arguments wadd {C} _ _ _. Arguments seq_of {C} _ _.
Arguments push_backtrack {C} _ _. Arguments pop_backtrack {C} _ _.
Arguments start_backtrack {C} _. Arguments end_backtrack {C} _.
Arguments encode_bytes {C} _ _. Arguments encode_byte {C} _ _. Arguments encode_tag_field {C} _ _.
Arguments encode_size_field {C} _ _. Arguments check_not_truncated {C} _.
Arguments backfill {C} _ _. Arguments call_sign {C} _ _ _ _ _. Arguments set_csr {C} _ _.
Arguments get_csr {C} _. Arguments check_no_backtracks {C} _.

(** ** Lengths *)

Lemma len_app a b : len (a ++ b) = len a + len b.
Proof. unfold len. rewrite app_length. lia. Qed.
Lemma len_cons x l : len (x :: l) = 1 + len l.
Proof. unfold len. cbn [length]. lia. Qed.
Lemma len_nil : len [] = 0.
Proof. reflexivity. Qed.
Lemma len_concat l : len (concat l) = fold_right N.add 0 (map len l).
Proof. induction l; cbn [concat map fold_right]; [reflexivity|]. rewrite len_app, IHl. reflexivity. Qed.

(** ** [put_at] *)

Lemma nth_error_firstn {A} (l : list A) : forall n i, (i < n)%nat -> nth_error (firstn n l) i = nth_error l i.
Proof.
  induction l; intros [|n] [|i] H; cbn; try reflexivity; try lia. apply IHl. lia.
Qed.
Lemma nth_error_skipn {A} (l : list A) : forall n i, nth_error (skipn n l) i = nth_error l (n + i).
Proof.
  induction l; intros [|n] i; cbn; try reflexivity.
  - destruct i; reflexivity.
  - apply IHl.
Qed.

Lemma length_put_at buf off bs : length (put_at buf off bs) = length buf.
Proof.
  unfold put_at, len. destruct (N.leb_spec (off + N.of_nat (length bs)) (N.of_nat (length buf))); [|reflexivity].
  rewrite !app_length, firstn_length, skipn_length. lia.
Qed.
Lemma len_put_at buf off bs : len (put_at buf off bs) = len buf.
Proof. unfold len. rewrite length_put_at. reflexivity. Qed.

Lemma nth_error_put_at buf off bs i : off + len bs <= len buf ->
  nth_error (put_at buf off bs) i =
  (if Nat.ltb i (N.to_nat off) then nth_error buf i
   else if Nat.ltb i (N.to_nat off + length bs) then nth_error bs (i - N.to_nat off)
   else nth_error buf i).
Proof.
  unfold put_at, len. intros H.
  destruct (N.leb_spec (off + N.of_nat (length bs)) (N.of_nat (length buf))); [|lia].
  assert (Hf : length (firstn (N.to_nat off) buf) = N.to_nat off) by (rewrite firstn_length; lia).
  destruct (Nat.ltb_spec i (N.to_nat off)).
  - rewrite nth_error_app1 by lia. apply nth_error_firstn. assumption.
  - rewrite nth_error_app2 by lia. rewrite Hf.
    destruct (Nat.ltb_spec i (N.to_nat off + length bs)).
    + apply nth_error_app1. lia.
    + rewrite nth_error_app2 by lia. rewrite nth_error_skipn. f_equal. lia.
Qed.

Lemma put_at_prefix buf off bs n : (n <= N.to_nat off)%nat -> firstn n (put_at buf off bs) = firstn n buf.
Proof.
  intros H. unfold put_at. destruct (N.leb_spec (off + len bs) (len buf)) as [L|L]; [|reflexivity].
  unfold len in L. rewrite firstn_app, firstn_firstn, firstn_length.
  replace (Nat.min n (N.to_nat off)) with n by lia.
  replace (n - Nat.min (N.to_nat off) (length buf))%nat with 0%nat by lia.
  rewrite firstn_O, app_nil_r. reflexivity.
Qed.

Ltac nth_cases :=
  repeat match goal with
         | |- context [Nat.ltb ?a ?b] => destruct (Nat.ltb_spec a b); try lia
         end.

Lemma put_at_app buf off a b : off + len (a ++ b) <= len buf ->
  put_at (put_at buf off a) (off + len a) b = put_at buf off (a ++ b).
Proof.
  rewrite len_app. intros H. apply list_ext. intros i.
  rewrite (nth_error_put_at _ (off + len a)) by (rewrite len_put_at; lia).
  rewrite (nth_error_put_at _ off a) by lia.
  rewrite (nth_error_put_at _ off (a ++ b)) by (rewrite len_app; lia).
  rewrite app_length. unfold len in *. replace (N.to_nat (off + N.of_nat (length a))) with (N.to_nat off + length a)%nat by lia.
  nth_cases; try reflexivity.
  - rewrite nth_error_app1 by lia. reflexivity.
  - rewrite nth_error_app2 by lia. f_equal. lia.
Qed.

Lemma put_at_nil buf off : off <= len buf -> put_at buf off [] = buf.
Proof.
  intros H. apply list_ext. intros i. rewrite nth_error_put_at by (cbn; lia).
  cbn [length]. nth_cases; reflexivity.
Qed.

(** Writing a header in front of contents written before. *)
Lemma put_at_header buf off tag sz bs : off + 1 + len sz + len bs <= len buf ->
  put_at (put_at (put_at buf off [tag]) (off + 1 + len sz) bs) (off + 1) sz
  = put_at buf off (tag :: sz ++ bs).
Proof.
  intros H. apply list_ext. intros i. assert (len [tag] = 1) by reflexivity.
  rewrite (nth_error_put_at _ (off + 1)) by (rewrite !len_put_at; lia).
  rewrite (nth_error_put_at _ (off + 1 + len sz)) by (rewrite !len_put_at; lia).
  rewrite (nth_error_put_at _ off [tag]) by lia.
  rewrite (nth_error_put_at _ off (tag :: sz ++ bs)) by (rewrite len_cons, len_app; lia).
  cbn [length]. rewrite app_length. unfold len in *.
  replace (N.to_nat (off + 1 + N.of_nat (length sz))) with (N.to_nat off + 1 + length sz)%nat by lia.
  replace (N.to_nat (off + 1)) with (N.to_nat off + 1)%nat by lia.
  nth_cases; try reflexivity.
  all: destruct (i - N.to_nat off)%nat as [|j] eqn:E; cbn [nth_error];
    first [ rewrite nth_error_app1 by lia; f_equal; lia
          | rewrite nth_error_app2 by lia; f_equal; lia
          | lia
          | reflexivity
          | replace (i - N.to_nat off)%nat with 0%nat by lia; reflexivity ].
Qed.

Lemma read_put_at buf off bs : off + len bs <= len buf ->
  firstn (length bs) (skipn (N.to_nat off) (put_at buf off bs)) = bs.
Proof.
  intros H. unfold put_at, len in *.
  destruct (N.leb_spec (off + N.of_nat (length bs)) (N.of_nat (length buf))); [|lia].
  assert (Hf : length (firstn (N.to_nat off) buf) = N.to_nat off) by (rewrite firstn_length; lia).
  rewrite skipn_app, skipn_all2 by lia. rewrite Hf, Nat.sub_diag. cbn [skipn app].
  rewrite firstn_app_exact. reflexivity.
Qed.

(** ** The bytes the primitives write *)

Definition code_len (n : N) : bytes :=
  let width := get_size_width n in
  if N.eqb width 1 then [N.modulo n 256]
  else
    let rem := N.to_nat (width - 1) in
    N.lor 0x80 (N.of_nat rem)
      :: map (fun i => N.modulo (N.shiftr n (N.of_nat i * 8)) 256) (rev (seq 0 rem)).

Lemma width_cases n : get_size_width n = 1 \/ get_size_width n = 2 \/ get_size_width n = 3
  \/ get_size_width n = 4 \/ get_size_width n = 5.
Proof.
  unfold get_size_width.
  destruct (N.ltb n 128), (N.ltb n 256), (N.ltb n 65536), (N.ltb n 16777216); tauto.
Qed.

Lemma len_code_len n : len (code_len n) = get_size_width n.
Proof.
  unfold code_len. destruct (width_cases n) as [E|[E|[E|[E|E]]]]; rewrite E; reflexivity.
Qed.

(** C28: what is written is the DER form of any size below 2^32. *)
Lemma code_len_bytes n : all_bytes (code_len n).
Proof.
  unfold code_len. destruct (N.eqb (get_size_width n) 1).
  - constructor; [apply N.mod_lt; lia|constructor].
  - constructor.
    + destruct (width_cases n) as [E|[E|[E|[E|E]]]]; rewrite E; reflexivity.
    + apply Forall_map, Forall_forall. intros x _. apply N.mod_lt. lia.
Qed.

Lemma shift_div n k : N.shiftr n k = n / 2 ^ k.
Proof. apply N.shiftr_div_pow2. Qed.

Lemma code_len_octets n : n < 2 ^ 32 -> length_octets n (code_len n).
Proof.
  intros H. assert (HB := code_len_bytes n). revert HB. unfold code_len, get_size_width.
  change (2 ^ 32) with 4294967296 in H.
  destruct (N.ltb_spec n 128) as [L|L].
  { intros _. cbn [N.eqb]. change (N.eqb 1 1) with true. cbv iota.
    rewrite N.mod_small by lia. constructor. assumption. }
  destruct (N.ltb_spec n 256) as [L2|L2]; [|destruct (N.ltb_spec n 65536) as [L3|L3];
    [|destruct (N.ltb_spec n 16777216) as [L4|L4]]].
  all: match goal with |- context [N.eqb ?a 1] => change (N.eqb a 1) with false end; cbv iota zeta.
  all: match goal with |- context [N.to_nat ?a] => let v := eval vm_compute in (N.to_nat a) in change (N.to_nat a) with v end.
  all: cbn [rev seq app map].
  all: match goal with |- context [N.lor 128 ?a] => let v := eval vm_compute in (N.lor 128 a) in change (N.lor 128 a) with v end.
  all: cbn [N.of_nat Pos.of_succ_nat Pos.succ]; rewrite ?shift_div.
  all: repeat match goal with |- context [2 ^ ?k] => let v := eval vm_compute in (2 ^ k) in change (2 ^ k) with v end.
  all: intros HB; inversion HB as [|? ? _ HB']; subst.
  all: match goal with |- length_octets ?n (?h :: ?ds) =>
         change h with (128 + N.of_nat (length ds)) end.
  all: apply LenLong; [assumption| |cbn; lia].
  all: split; [exact HB'|split; [|cbn; intros E; injection E as E]].
  all: try (unfold be_val; cbn [rev app le_val]; rewrite ?N.div_1_r;
            Z.div_mod_to_equations; lia).
  all: revert E; rewrite ?N.div_1_r; Z.div_mod_to_equations; lia.
Qed.

Lemma code_len_der n : n < 2 ^ 32 -> code_len n = der_len n.
Proof. intros H. apply length_octets_unique, code_len_octets, H. Qed.

(** The contents octets of the INTEGER written for a byte string. *)
Definition code_int (l : bytes) : bytes :=
  let size := integer_len_loop l (len l) in
  (if N.ltb (len l) size then [0] else []) ++ skipn (N.to_nat (len l - size)) l.

Lemma int_size_bound l : forall n, len l <= n ->
  integer_len_loop l n <= n + 1 /\ n - len l + (if Nat.eqb (length l) 0 then 0 else 1) <= integer_len_loop l n.
Proof.
  induction l as [|b l IH]; intros n H; cbn [integer_len_loop length Nat.eqb].
  - cbn. lia.
  - rewrite len_cons in *. destruct (N.eqb b 0 && negb match l with [] => true | _ :: _ => false end) eqn:E.
    + destruct (IH (n - 1)) as [A B]; [lia|]. destruct l; [rewrite andb_false_r in E; discriminate|].
      cbn [length Nat.eqb] in B. rewrite len_cons in *. lia.
    + destruct (negb (N.eqb (N.land b 128) 0)); lia.
Qed.

Lemma len_code_int l : len (code_int l) = get_integer_bytes_size l false.
Proof.
  unfold code_int, get_integer_bytes_size, get_structure_size.
  destruct (int_size_bound l (len l)) as [A B]; [lia|].
  set (s := integer_len_loop l (len l)) in *. rewrite len_app.
  unfold len at 3. rewrite skipn_length. unfold len in *.
  destruct (N.ltb_spec (N.of_nat (length l)) s); cbn [length]; lia.
Qed.

Lemma high_bit b : b < 256 -> N.eqb (N.land b 0x80) 0 = N.ltb b 128.
Proof.
  intros H. assert (A : forallb (fun i => Bool.eqb (N.eqb (N.land (N.of_nat i) 0x80) 0) (N.ltb (N.of_nat i) 128)) (seq 0 256) = true)
    by (vm_compute; reflexivity).
  rewrite forallb_forall in A. specialize (A (N.to_nat b)).
  rewrite N2Nat.id in A. apply Bool.eqb_prop, A, in_seq. lia.
Qed.

Theorem code_int_correct l : all_bytes l -> l <> [] -> code_int l = der_uint (be_val l).
Proof.
  induction l as [|b l IH]; intros HB Hn; [congruence|]. inversion HB as [|? ? Hb HB']; subst.
  destruct (N.eqb b 0 && negb match l with [] => true | _ :: _ => false end) eqn:E.
  - apply andb_true_iff in E. destruct E as [E1 E2]. apply N.eqb_eq in E1. subst b.
    destruct l as [|b' l]; [discriminate|].
    assert (V : be_val (0 :: b' :: l) = be_val (b' :: l)) by (rewrite (be_val_cons 0); lia).
    rewrite V, <- IH by (auto; discriminate). clear.
    unfold code_int. set (m := b' :: l).
    assert (HS : integer_len_loop (0 :: m) (len (0 :: m)) = integer_len_loop m (len m)).
    { cbn [integer_len_loop]. unfold m at 1. cbn [N.eqb negb andb]. rewrite len_cons. f_equal. lia. }
    rewrite HS. destruct (int_size_bound m (len m)) as [A B]; [lia|].
    set (s := integer_len_loop m (len m)) in *. rewrite len_cons.
    destruct (N.ltb_spec (1 + len m) s); [lia|].
    destruct (N.ltb_spec (len m) s).
    + replace (N.to_nat (1 + len m - s)) with 0%nat by lia.
      replace (N.to_nat (len m - s)) with 0%nat by lia. reflexivity.
    + replace (N.to_nat (1 + len m - s)) with (S (N.to_nat (len m - s))) by lia. reflexivity.
  - apply int_octets_unique.
    assert (HS : integer_len_loop (b :: l) (len (b :: l)) =
                if N.ltb b 128 then len (b :: l) else len (b :: l) + 1).
    { cbn [integer_len_loop]. rewrite E, high_bit by exact Hb. destruct (N.ltb b 128); reflexivity. }
    unfold code_int. rewrite HS. unfold is_byte in Hb.
    assert (Z0 : b = 0 -> l = []).
    { intros ->. destruct l; [reflexivity|discriminate]. }
    destruct (N.ltb_spec b 128) as [L|L].
    + rewrite N.ltb_irrefl, N.sub_diag. cbn [app skipn N.to_nat]. split; [exact HB|]. split.
      * cbn [signed_val]. destruct (N.ltb_spec b 128); [reflexivity|lia].
      * cbn. destruct l as [|b' l]; [exact I|]. split; intros [X _]; [specialize (Z0 X); discriminate|lia].
    + destruct (N.ltb_spec (len (b :: l)) (len (b :: l) + 1)); [|lia].
      replace (N.to_nat (len (b :: l) - (len (b :: l) + 1))) with 0%nat by lia.
      cbn [app skipn]. split; [constructor; [reflexivity|exact HB]|]. split.
      * cbn [signed_val]. destruct (N.ltb_spec 0 128); [|lia]. f_equal. rewrite (be_val_cons 0). lia.
      * cbn. split; intros [X Y]; lia.
Qed.

(** ** Running encoders *)

Section Run.
  Variable C : Type.
  Implicit Types (w : cw C) (m : W C N).

  Definition fits w (n : N) : Prop := cw_off w + n <= len (cw_buf w).

  (** An encoder that always writes [bs]. *)
  Definition pure m (bs : bytes) : Prop :=
    forall w, exists buf',
      m w = (Ok (len bs), mkCw buf' (cw_off w + len bs) (cw_csr w) (cw_back w) (cw_saved w) (cw_c w)) /\
      length buf' = length (cw_buf w) /\
      (fits w (len bs) -> buf' = put_at (cw_buf w) (cw_off w) bs) /\
      (forall n, (n <= N.to_nat (cw_off w))%nat -> firstn n buf' = firstn n (cw_buf w)).

  Lemma pure_ret : pure (wret 0) [].
  Proof.
    intros w. exists (cw_buf w). unfold wret. rewrite len_nil, N.add_0_r. repeat split; auto.
    - destruct w; reflexivity.
    - unfold fits. intros H. symmetry. apply put_at_nil. lia.
  Qed.

  Lemma pure_bytes bs : pure (encode_bytes bs) bs.
  Proof.
    intros w. eexists. split; [reflexivity|]. split; [apply length_put_at|]. split; [reflexivity|].
    intros n Hn. apply put_at_prefix, Hn.
  Qed.
  Lemma pure_byte b : pure (encode_byte b) [b].
  Proof. apply pure_bytes. Qed.
  Lemma pure_tag b : pure (encode_tag_field b) [b].
  Proof. apply pure_bytes. Qed.

  Lemma pure_add m1 m2 a b : pure m1 a -> pure m2 b -> pure (wadd m1 m2) (a ++ b).
  Proof.
    intros H1 H2 w. destruct (H1 w) as (b1 & E1 & L1 & F1 & P1).
    unfold wadd, wbind at 1. rewrite E1. unfold wbind.
    match goal with |- context [m2 ?x] => destruct (H2 x) as (b2 & E2 & L2 & F2 & P2) end.
    cbn [cw_buf cw_off cw_csr cw_back cw_saved cw_c] in *.
    rewrite E2. exists b2. unfold wret. rewrite len_app. split; [|split; [congruence|split]].
    - do 2 f_equal. lia.
    - unfold fits in *. cbn [cw_buf cw_off] in *. intros Hf. rewrite F2.
      + rewrite F1 by lia. apply put_at_app. rewrite len_app. lia.
      + assert (len b1 = len (cw_buf w)) by (unfold len; rewrite L1; reflexivity). lia.
    - intros n Hn. rewrite P2 by lia. apply P1, Hn.
  Qed.

  Lemma pure_fold ms bss : Forall2 pure ms bss -> forall m0 b0, pure m0 b0 ->
    pure (fold_left wadd ms m0) (b0 ++ concat bss).
  Proof.
    induction 1 as [|m bs ms bss Hm HF IH]; intros m0 b0 H0; cbn [fold_left concat].
    - rewrite app_nil_r. exact H0.
    - rewrite app_assoc. apply IH, pure_add; assumption.
  Qed.
  Lemma pure_seq ms bss : Forall2 pure ms bss -> pure (seq_of ms) (concat bss).
  Proof. intros H. exact (pure_fold _ _ H _ _ pure_ret). Qed.

  Lemma pure_ext m m' bs : (forall w, m w = m' w) -> pure m bs -> pure m' bs.
  Proof. intros E H w. rewrite <- E. apply H. Qed.
  Lemma pure_eq m bs bs' : pure m bs -> bs = bs' -> pure m bs'.
  Proof. intros H <-. exact H. Qed.

  Lemma pure_const m bs n : pure m bs -> len bs = n -> pure (wbind m (fun _ => wret n)) bs.
  Proof.
    intros H E w. destruct (H w) as (b1 & E1 & R). unfold wbind. rewrite E1. exists b1.
    split; [|exact R]. unfold wret. rewrite E. reflexivity.
  Qed.

  Lemma wbind_assoc {A B D} (m : W C A) (f : A -> W C B) (g : B -> W C D) w :
    wbind (wbind m f) g w = wbind m (fun a => wbind (f a) g) w.
  Proof. unfold wbind. destruct (m w) as [[a|e|k] w']; reflexivity. Qed.

  Lemma pure_map {A} (f : A -> N) l : pure (seq_of (map (fun x => encode_byte (f x)) l)) (map f l).
  Proof.
    eapply pure_eq.
    - apply (pure_seq _ (map (fun x => [f x]) l)). induction l; constructor; [apply pure_byte|assumption].
    - induction l; cbn [map concat app]; [reflexivity|]. f_equal. assumption.
  Qed.

  Lemma pure_size n : pure (encode_size_field n) (code_len n).
  Proof.
    pose proof (len_code_len n) as HL. revert HL. unfold encode_size_field, code_len.
    destruct (N.eqb_spec (get_size_width n) 1) as [E|E]; intros HL.
    - apply pure_const; [apply pure_byte|exact HL].
    - set (rem := N.to_nat (get_size_width n - 1)) in *.
      set (ds := map (fun i => N.modulo (N.shiftr n (N.of_nat i * 8)) 256) (rev (seq 0 rem))) in *.
      set (h := N.lor 128 (N.of_nat rem)) in *.
      intros w. destruct (pure_add _ _ _ _ (pure_byte h) (pure_map (fun i => N.modulo (N.shiftr n (N.of_nat i * 8)) 256) (rev (seq 0 rem))) w)
        as (b' & E' & R).
      exists b'. split; [|exact R]. fold ds in E'. cbn [app] in E'. rewrite HL in *.
      revert E'. unfold wadd, wbind, wret. destruct (encode_byte h w) as [[x|x|x] w1]; [|discriminate|discriminate].
      destruct (seq_of _ w1) as [[y|y|y] w2]; [|discriminate|discriminate].
      intros E'. injection E' as _ ->. reflexivity.
  Qed.

  Lemma pure_integer_bytes l : pure (encode_integer_bytes C l true) (tlv code_len T_INTEGER (code_int l)).
  Proof.
    unfold encode_integer_bytes. eapply pure_eq.
    - eapply pure_seq. constructor; [apply pure_tag|]. constructor; [apply pure_size|].
      constructor; [|constructor; [apply pure_bytes|constructor]].
      instantiate (1 := if N.ltb (len l) (get_integer_bytes_size l false) then [0] else []).
      destruct (N.ltb _ _); [apply pure_byte|apply pure_ret].
    - cbn [concat app]. rewrite app_nil_r. unfold tlv. f_equal. f_equal.
      fold (len (code_int l)). rewrite len_code_int. reflexivity.
  Qed.
  Lemma pure_integer_bytes_implicit l tag :
    pure (seq_of [encode_byte tag; encode_integer_bytes C l false]) (tlv code_len tag (code_int l)).
  Proof.
    unfold encode_integer_bytes. eapply pure_eq.
    - eapply pure_seq. constructor; [apply pure_byte|]. constructor; [|constructor].
      eapply pure_seq. constructor; [apply pure_ret|]. constructor; [apply pure_size|].
      constructor; [|constructor; [apply pure_bytes|constructor]].
      instantiate (1 := if N.ltb (len l) (get_integer_bytes_size l false) then [0] else []).
      destruct (N.ltb _ _); [apply pure_byte|apply pure_ret].
    - cbn [concat app]. rewrite !app_nil_r. unfold tlv. f_equal. f_equal.
      fold (len (code_int l)). rewrite len_code_int. reflexivity.
  Qed.
  (** The contents part on its own. *)
  Lemma pure_integer_untagged l :
    pure (encode_integer_bytes C l false) (code_len (len (code_int l)) ++ code_int l).
  Proof.
    unfold encode_integer_bytes. eapply pure_eq.
    - eapply pure_seq. constructor; [apply pure_ret|]. constructor; [apply pure_size|].
      constructor; [|constructor; [apply pure_bytes|constructor]].
      instantiate (1 := if N.ltb (len l) (get_integer_bytes_size l false) then [0] else []).
      destruct (N.ltb _ _); [apply pure_byte|apply pure_ret].
    - cbn [concat app]. rewrite !app_nil_r, len_code_int. reflexivity.
  Qed.

  Lemma pure_tlv tag v : pure (encode_tlv C tag v) (tlv code_len tag v).
  Proof.
    unfold encode_tlv. eapply pure_eq.
    - eapply pure_seq. constructor; [apply pure_tag|]. constructor; [apply pure_size|].
      constructor; [apply pure_bytes|constructor].
    - cbn [concat app]. rewrite app_nil_r. reflexivity.
  Qed.

  (** *** Encoders that may fail *)

  Definition gen := C -> result bytes * C.
  Definition fpure (bs : bytes) : gen := fun c => (Ok bs, c).
  Definition ffail (e : dpe_error) : gen := fun c => (Err e, c).
  Definition fbind (f : gen) (g : bytes -> gen) : gen := fun c =>
    match f c with (Ok a, c') => g a c' | (Err e, c') => (Err e, c') | (Crash k, c') => (Crash k, c') end.
  Definition fseq (f g : gen) : gen := fbind f (fun a => fbind g (fun b => fpure (a ++ b))).
  Definition fcat (l : list gen) : gen := fold_left fseq l (fpure []).

  (** The buffer before the current offset, and its size, stay the same. *)
  Definition keeps w w' : Prop :=
    length (cw_buf w') = length (cw_buf w) /\
    (forall n, (n <= N.to_nat (cw_off w))%nat -> firstn n (cw_buf w') = firstn n (cw_buf w)).

  (** [k]: success means that everything fitted. *)
  Inductive outcome (k : bool) (f : gen) w : result N -> cw C -> Prop :=
  | OutDone bs c' w' :
      f (cw_c w) = (Ok bs, c') -> keeps w w' ->
      (fits w (len bs) -> cw_buf w' = put_at (cw_buf w) (cw_off w) bs) ->
      (k = true -> fits w (len bs)) ->
      cw_off w' = cw_off w + len bs -> cw_back w' = cw_back w -> cw_saved w' = cw_saved w ->
      cw_c w' = c' -> outcome k f w (Ok (len bs)) w'
  | OutErr e c' w' : f (cw_c w) = (Err e, c') -> keeps w w' -> cw_c w' = c' -> outcome k f w (Err e) w'
  | OutCrash x c' w' : f (cw_c w) = (Crash x, c') -> keeps w w' -> cw_c w' = c' -> outcome k f w (Crash x) w'
  | OutFull w' : keeps w w' -> (forall bs c', f (cw_c w) = (Ok bs, c') -> ~ fits w (len bs)) ->
      outcome k f w (Err (InternalError CertSizeOverflow)) w'.

  Definition outc (k : bool) (f : gen) w (p : result N * cw C) : Prop := outcome k f w (fst p) (snd p).

  (** [d] entries of the backtrack stack are enough. *)
  Definition runs (k : bool) (d : nat) m (f : gen) : Prop :=
    forall w, cw_saved w = None -> (length (cw_back w) + d <= max_backtracks)%nat ->
      outc k f w (m w).

  Lemma keeps_refl w : keeps w w.
  Proof. split; auto. Qed.
  Lemma keeps_trans w1 w2 w3 : cw_off w1 <= cw_off w2 -> keeps w1 w2 -> keeps w2 w3 -> keeps w1 w3.
  Proof.
    intros H [A B] [D E]. split; [congruence|]. intros n Hn. rewrite E by lia. apply B, Hn.
  Qed.

  Lemma pure_runs m bs : pure m bs -> runs false 0 m (fpure bs).
  Proof.
    intros H w Hs Hb. destruct (H w) as (b & E & L & F & P). rewrite E. unfold outc; cbn [fst snd].
    econstructor; eauto; cbn [cw_buf cw_off cw_back cw_saved cw_c]; try reflexivity; try discriminate.
    split; auto.
  Qed.

  Lemma runs_ret : runs false 0 (wret 0) (fpure []).
  Proof. apply pure_runs, pure_ret. Qed.

  Lemma runs_lift_err {e} : runs false 0 (wlift (Err e)) (ffail e).
  Proof.
    intros w Hs Hb. unfold outc. cbn. econstructor; [reflexivity|apply keeps_refl|reflexivity].
  Qed.

  Lemma runs_weaken k d d' m f : runs k d m f -> (d <= d')%nat -> runs k d' m f.
  Proof. intros H Hd w Hs Hb. apply H; [exact Hs|lia]. Qed.
  Lemma runs_false k d m f : runs k d m f -> runs false d m f.
  Proof.
    intros H w Hs Hb. unfold outc; destruct (H w Hs Hb); [eapply OutDone; eauto; discriminate|eapply OutErr; eauto
      |eapply OutCrash; eauto|eapply OutFull; eauto].
  Qed.
  Lemma runs_ext k d m m' f : (forall w, m w = m' w) -> runs k d m f -> runs k d m' f.
  Proof. intros E H w Hs Hb. rewrite <- E. apply H; assumption. Qed.
  Lemma runs_feq k d m f f' : (forall c, f c = f' c) -> runs k d m f -> runs k d m f'.
  Proof.
    intros E H w Hs Hb. unfold outc; destruct (H w Hs Hb) as [? ? ? Hf|? ? ? Hf|? ? ? Hf|? ? Hf]; rewrite ?E in Hf.
    - eapply OutDone; eauto.
    - eapply OutErr; eauto.
    - eapply OutCrash; eauto.
    - eapply OutFull; eauto.
  Qed.

  Lemma runs_add k1 k2 d m1 m2 f1 f2 : runs k1 d m1 f1 -> runs k2 d m2 f2 ->
    runs k2 d (wadd m1 m2) (fseq f1 f2).
  Proof.
    intros H1 H2 w Hs Hb. unfold wadd. unfold wbind at 1.
    pose proof (H1 w Hs Hb) as O. destruct (m1 w) as [r1 w1]. unfold outc in O; cbn [fst snd] in O.
    destruct O as [a c1 w1 Hf K P _ Eo Eb Es Ec|e c1 w1 Hf K Ec|x c1 w1 Hf K Ec|w1 K Hn].
    2-4: unfold outc; cbn [fst snd].
    2: { eapply OutErr; eauto. unfold fseq, fbind. rewrite Hf. reflexivity. }
    2: { eapply OutCrash; eauto. unfold fseq, fbind. rewrite Hf. reflexivity. }
    2: { apply OutFull; [exact K|]. unfold fseq, fbind. intros bs c' E.
         destruct (f1 (cw_c w)) as [[a|?|?] c1]; try discriminate.
         destruct (f2 c1) as [[b|?|?] c2]; try discriminate. injection E as <- <-.
         specialize (Hn a c1 eq_refl). unfold fits in *. rewrite len_app. lia. }
    pose proof (H2 w1 ltac:(congruence) ltac:(congruence)) as O. unfold wbind.
    destruct (m2 w1) as [r2 w2]. unfold outc in O; cbn [fst snd] in O.
    assert (LB : len (cw_buf w1) = len (cw_buf w)) by (unfold len; rewrite (proj1 K); reflexivity).
    assert (FF : forall x, fits w1 x <-> fits w (len a + x)) by (intros x; unfold fits; rewrite LB, Eo; split; lia).
    assert (KK : forall w', keeps w1 w' -> keeps w w').
    { intros w' K'. eapply keeps_trans; [|exact K|exact K']. lia. }
    destruct O as [b c2 w2 Hf2 K2 P2 Hk Eo2 Eb2 Es2 Ec2|e c2 w2 Hf2 K2 Ec2|x c2 w2 Hf2 K2 Ec2|w2 K2 Hn].
    - unfold wret. unfold outc; cbn [fst snd]. rewrite <- len_app. rewrite Ec in Hf2. eapply OutDone; eauto.
      + unfold fseq, fbind. rewrite Hf, Hf2. reflexivity.
      + rewrite len_app. intros Hx. rewrite P2 by (apply FF, Hx).
        rewrite P by (unfold fits in *; lia). rewrite Eo. apply put_at_app. rewrite len_app.
        unfold fits in Hx. lia.
      + intros Hx. rewrite len_app. apply FF, Hk, Hx.
      + rewrite Eo2, Eo, len_app. lia.
      + congruence.
      + congruence.
    - unfold outc; cbn [fst snd]. rewrite Ec in Hf2. eapply OutErr; eauto. unfold fseq, fbind. rewrite Hf, Hf2. reflexivity.
    - unfold outc; cbn [fst snd]. rewrite Ec in Hf2. eapply OutCrash; eauto. unfold fseq, fbind. rewrite Hf, Hf2. reflexivity.
    - unfold outc; cbn [fst snd]. apply OutFull; [auto|]. unfold fseq, fbind. rewrite Hf. rewrite Ec in Hn. intros bs c' E.
      destruct (f2 c1) as [[b|?|?] c2] eqn:E2; try discriminate. injection E as <- <-.
      specialize (Hn b c2 eq_refl). rewrite FF in Hn. rewrite len_app. exact Hn.
  Qed.

  Lemma runs_fold d ms fs : Forall2 (runs false d) ms fs -> forall m0 f0, runs false d m0 f0 ->
    runs false d (fold_left wadd ms m0) (fold_left fseq fs f0).
  Proof.
    induction 1 as [|m f ms fs Hm HF IH]; intros m0 f0 H0; cbn [fold_left]; [exact H0|].
    apply IH. eapply runs_add; eauto.
  Qed.
  Lemma runs_seq d ms fs : Forall2 (runs false d) ms fs -> runs false d (seq_of ms) (fcat fs).
  Proof. intros H. apply runs_fold; [exact H|]. eapply runs_weaken; [apply runs_ret|lia]. Qed.

  Lemma runs_check k d m f : runs k d m f ->
    runs true d (wbind m (fun n => wbind check_not_truncated (fun _ => wret n))) f.
  Proof.
    intros H w Hs Hb. pose proof (H w Hs Hb) as O. unfold wbind at 1. destruct (m w) as [r1 w1]. unfold outc in O; cbn [fst snd] in O.
    destruct O as [a c1 w1 Hf K P _ Eo Eb Es Ec|e c1 w1 Hf K Ec|x c1 w1 Hf K Ec|w1 K Hn].
    2-4: unfold outc; cbn [fst snd].
    2: { eapply OutErr; eauto. }
    2: { eapply OutCrash; eauto. }
    2: { apply OutFull; auto. }
    assert (LB : len (cw_buf w1) = len (cw_buf w)) by (unfold len; rewrite (proj1 K); reflexivity).
    unfold wbind, check_not_truncated. rewrite LB, Eo.
    destruct (N.ltb_spec (len (cw_buf w)) (cw_off w + len a)); unfold outc; cbn [fst snd wret].
    - apply OutFull; [exact K|]. intros bs c' E. rewrite Hf in E. injection E as <- <-. unfold fits. lia.
    - unfold wret. unfold outc; cbn [fst snd]. eapply OutDone; eauto.
  Qed.

  (** *** A body whose length is filled in afterwards *)

  Definition fwrap (tag : N) (f : gen) : gen :=
    fbind f (fun bs c =>
      if N.eqb (get_size_width (len bs)) 3 then (Ok (tlv code_len tag bs), c)
      else (Err X509InvalidWidth, c)).

  Definition wrap3 (tag : N) (body : N -> W C N) : W C N :=
    wbind (encode_tag_field tag) (fun prefix =>
    wbind (push_backtrack size_tag_offset) (fun offset =>
    wbind (body offset) (fun n =>
    wbind (backfill n) (fun k => wret (prefix + k + n))))).

  (** The same effect apart from the offset and stacks after a failure. *)
  Definition simres (x y : result N * cw C) : Prop :=
    fst x = fst y /\ cw_buf (snd x) = cw_buf (snd y) /\ cw_c (snd x) = cw_c (snd y) /\
    (forall n, fst x = Ok n -> snd x = snd y).
  Definition similar (d : nat) (m m' : W C N) : Prop := forall w, cw_saved w = None ->
    (length (cw_back w) + d <= max_backtracks)%nat -> simres (m w) (m' w).
  Lemma simres_refl x : simres x x.
  Proof. repeat split; reflexivity. Qed.

  Lemma runs_similar k d m m' f : similar d m m' -> runs k d m f -> runs k d m' f.
  Proof.
    intros HS H w Hs Hb. pose proof (H w Hs Hb) as O. destruct (HS w Hs Hb) as (A & B & D & E).
    unfold outc in *. rewrite <- A. destruct (m w) as [r1 w1], (m' w) as [r2 w2]. cbn [fst snd] in *.
    destruct O as [a c1 w1 Hf K P Hk Eo Eb Es Ec|e c1 w1 Hf K Ec|x c1 w1 Hf K Ec|w1 K Hn].
    - rewrite <- (E _ eq_refl). eapply OutDone; eauto.
    - eapply OutErr; eauto; [|congruence]. destruct K. split; rewrite <- B; assumption.
    - eapply OutCrash; eauto; [|congruence]. destruct K. split; rewrite <- B; assumption.
    - apply OutFull; auto. destruct K. split; rewrite <- B; assumption.
  Qed.

  Lemma wbind_ok {A B} (m : W C A) (f : A -> W C B) w a w' : m w = (Ok a, w') -> wbind m f w = f a w'.
  Proof. intros E. unfold wbind. rewrite E. reflexivity. Qed.
  Lemma wbind_err {A B} (m : W C A) (f : A -> W C B) w e w' : m w = (Err e, w') -> wbind m f w = (Err e, w').
  Proof. intros E. unfold wbind. rewrite E. reflexivity. Qed.

  Lemma start_ok w : cw_saved w = None ->
    start_backtrack w = (Ok tt, mkCw (cw_buf w) (cw_off w) (cw_csr w) (cw_back w) (Some (cw_off w)) (cw_c w)).
  Proof. intros E. unfold start_backtrack. rewrite E. reflexivity. Qed.
  Lemma pop_3 w o a l n : cw_saved w = Some o -> cw_back w = (a, a + 3) :: l ->
    pop_backtrack n w =
      if N.eqb n 3 then (Ok tt, mkCw (cw_buf w) a (cw_csr w) l (cw_saved w) (cw_c w))
      else (Err X509InvalidWidth, mkCw (cw_buf w) (cw_off w) (cw_csr w) l (cw_saved w) (cw_c w)).
  Proof.
    intros E E2. unfold pop_backtrack. rewrite E, E2. replace (a + 3 - a) with 3 by lia.
    rewrite (N.eqb_sym 3). destruct (N.eqb n 3); reflexivity.
  Qed.

  Lemma backfill_spec w size a l : cw_saved w = None -> cw_back w = (a, a + 3) :: l ->
    a + 3 <= cw_off w ->
    if N.eqb (get_size_width size) 3 then
      exists buf', backfill size w = (Ok 3, mkCw buf' (cw_off w) (cw_csr w) l None (cw_c w)) /\
        length buf' = length (cw_buf w) /\
        (a + 3 <= len (cw_buf w) -> buf' = put_at (cw_buf w) a (code_len size)) /\
        (forall n, (n <= N.to_nat a)%nat -> firstn n buf' = firstn n (cw_buf w))
    else exists w', backfill size w = (Err X509InvalidWidth, w') /\
        cw_buf w' = cw_buf w /\ cw_c w' = cw_c w.
  Proof.
    intros Hs Hb Ho. unfold backfill. rewrite (wbind_ok _ _ _ _ _ (start_ok w Hs)).
    match goal with |- context [wbind (pop_backtrack _) _ ?x] => set (w1 := x) end.
    pose proof (pop_3 w1 (cw_off w) a l (get_size_width size) eq_refl Hb) as EP.
    destruct (N.eqb_spec (get_size_width size) 3) as [E|E].
    - rewrite (wbind_ok _ _ _ _ _ EP).
      match goal with |- context [wbind (encode_size_field size) _ ?x] =>
        destruct (pure_size size x) as (b & Eb & Lb & Fb & Pb) end.
      rewrite (wbind_ok _ _ _ _ _ Eb). cbn [w1 cw_saved cw_back cw_buf cw_off cw_csr cw_c] in *.
      unfold wbind, end_backtrack. cbn [cw_saved cw_back cw_buf cw_off cw_csr cw_c].
      unfold wret, fits in *. cbn [cw_buf cw_off] in *. rewrite len_code_len, E in *.
      exists b. repeat split; auto.
    - rewrite (wbind_err _ _ _ _ _ EP). eexists. split; [reflexivity|]. split; reflexivity.
  Qed.

  Lemma runs_wrap3 k d tag body f :
    runs k d (fun w => body (cw_off w) w) f -> runs k (S d) (wrap3 tag body) (fwrap tag f).
  Proof.
    intros H w Hs Hb. unfold wrap3. unfold wbind at 1.
    destruct (pure_tag tag w) as (b0 & E0 & L0 & F0 & P0). rewrite E0. change (len [tag]) with 1 in *.
    set (w0 := mkCw b0 (cw_off w + 1) (cw_csr w) (cw_back w) (cw_saved w) (cw_c w)).
    unfold wbind at 1. unfold push_backtrack at 1, size_tag_offset.
    change (cw_back w0) with (cw_back w). unfold max_backtracks in *.
    destruct (Nat.ltb_spec (length (cw_back w)) 10); [|lia].
    cbn [w0 cw_buf cw_off cw_csr cw_back cw_saved cw_c].
    set (w1 := mkCw b0 (cw_off w + 1 + 3) (cw_csr w) ((cw_off w + 1, cw_off w + 1 + 3) :: cw_back w) (cw_saved w) (cw_c w)).
    assert (O : outc k f w1 (body (cw_off w + 1 + 3) w1)).
    { apply (H w1 Hs). cbn [w1 cw_back length]. unfold max_backtracks. lia. }
    unfold wbind at 1. destruct (body (cw_off w + 1 + 3) w1) as [r w2]. unfold outc in O; cbn [fst snd] in O.
    assert (K01 : keeps w w1).
    { split; [exact L0|]. exact P0. }
    assert (KK : forall w', keeps w1 w' -> keeps w w').
    { intros w' K'. eapply keeps_trans; [|exact K01|exact K']. cbn. lia. }
    assert (LB : len (cw_buf w1) = len (cw_buf w)) by (unfold len; rewrite (proj1 K01); reflexivity).

    assert (WT : forall bs, get_size_width (len bs) = 3 -> len (tlv code_len tag bs) = 1 + 3 + len bs).
    { intros bs E. unfold tlv. rewrite len_cons, len_app. fold (len bs). rewrite len_code_len. lia. }
    inversion O as [bs c' w' Hf K P Hk Eo Eb Es Ec|e c1 w' Hf K Ec|x c1 w' Hf K Ec|w' K Hn]; subst w'.
    all: try change (cw_c w1) with (cw_c w) in Hf; try change (cw_c w1) with (cw_c w) in Hn.
    - pose proof (backfill_spec w2 (len bs) (cw_off w + 1) (cw_back w)) as BF.
      specialize (BF ltac:(rewrite Es; exact Hs) ltac:(rewrite Eb; reflexivity)).
      rewrite Eo in BF. change (cw_off w1) with (cw_off w + 1 + 3) in *. specialize (BF ltac:(lia)).
      unfold wbind at 1. destruct (N.eqb_spec (get_size_width (len bs)) 3) as [Ew|Ew].
      + destruct BF as (b3 & -> & L3 & F3 & P3). unfold wret. unfold outc; cbn [fst snd].
        replace (1 + 3 + len bs) with (len (tlv code_len tag bs)) by (apply WT, Ew).
        eapply OutDone with (c' := c').
        * unfold fwrap, fbind. rewrite Hf, Ew. reflexivity.
        * split; cbn [cw_buf]; [rewrite L3, (proj1 K); exact L0|].
          intros n Hn'. rewrite P3 by lia. rewrite (proj2 K) by (cbn [w1 cw_off]; lia). apply P0, Hn'.
        * cbn [cw_buf]. intros Hx. unfold fits in Hx. rewrite WT in Hx by exact Ew.
          assert (LB2 : len (cw_buf w2) = len (cw_buf w)) by (unfold len; rewrite (proj1 K); fold (len (cw_buf w1)); exact LB).
          rewrite F3 by lia. rewrite P by (unfold fits; rewrite LB; cbn [w1 cw_off]; lia).
          cbn [w1 cw_buf cw_off]. rewrite F0 by (unfold fits; lia).
          unfold tlv. fold (len bs). rewrite <- put_at_header by (rewrite len_code_len; lia).
          rewrite len_code_len, Ew. reflexivity.
        * intros Hx. specialize (Hk Hx). unfold fits in *. rewrite WT by exact Ew. rewrite LB in Hk.
          cbn [w1 cw_off] in Hk. lia.
        * cbn [cw_off]. rewrite WT by exact Ew. lia.
        * reflexivity.
        * cbn [cw_saved]. symmetry. exact Hs.
        * cbn [cw_c]. exact Ec.
      + destruct BF as (w3 & -> & B3 & C3). unfold outc; cbn [fst snd]. eapply OutErr with (c' := c').
        * unfold fwrap, fbind. rewrite Hf. destruct (N.eqb_spec (get_size_width (len bs)) 3); [contradiction|reflexivity].
        * apply KK. destruct K as [K1 K2]. split; rewrite B3; assumption.
        * congruence.
    - unfold outc; cbn [fst snd]. eapply OutErr; eauto. unfold fwrap, fbind. rewrite Hf. reflexivity.
    - unfold outc; cbn [fst snd]. eapply OutCrash; eauto. unfold fwrap, fbind. rewrite Hf. reflexivity.
    - unfold outc; cbn [fst snd]. apply OutFull; [auto|]. unfold fwrap, fbind. intros bs c' E.
      destruct (f (cw_c w)) as [[a|?|?] c1] eqn:Ef; try discriminate.
      destruct (N.eqb_spec (get_size_width (len a)) 3) as [Ew|]; [|discriminate]. injection E as <- <-.
      specialize (Hn a c1 eq_refl). unfold fits in *. rewrite LB in Hn. rewrite WT by exact Ew.
      cbn [w1 cw_off] in Hn. lia.
  Qed.
End Run.
Arguments pure {C} _ _. Arguments runs {C} _ _ _ _. Arguments fpure {C} _ _. Arguments fseq {C} _ _ _.
Arguments fcat {C} _ _. Arguments fwrap {C} _ _ _. Arguments fbind {C} _ _ _. Arguments ffail {C} _ _.
Arguments wrap3 {C} _ _ _. Arguments outcome {C} _ _ _ _ _. Arguments keeps {C} _ _. Arguments fits {C} _ _.
Arguments similar {C} _ _ _. Arguments simres {C} _ _.
