(** DerProofs.v -- facts about the DER specification of Der.v: length octets and
    INTEGER contents are determined by the value, and decoding inverts encoding. *)
From Verif Require Import Base Errors Types Lib Der.
Open Scope N_scope.

Lemma le_val_app a b : le_val (a ++ b) = le_val a + 256 ^ N.of_nat (length a) * le_val b.
Proof.
  induction a as [|x a IH]; cbn [le_val app length].
  - rewrite N.mul_1_l. reflexivity.
  - rewrite IH. replace (N.of_nat (S (length a))) with (N.of_nat (length a) + 1) by lia.
    rewrite N.pow_add_r. change (256 ^ 1) with 256. lia.
Qed.

Lemma be_val_app a b : be_val (a ++ b) = be_val a * 256 ^ N.of_nat (length b) + be_val b.
Proof.
  unfold be_val. rewrite rev_app_distr, le_val_app, rev_length. lia.
Qed.

Lemma be_val_cons x l : be_val (x :: l) = x * 256 ^ N.of_nat (length l) + be_val l.
Proof.
  change (x :: l) with ([x] ++ l). rewrite be_val_app. f_equal. f_equal. unfold be_val. cbn. lia.
Qed.

Lemma all_bytes_rev l : all_bytes l -> all_bytes (rev l).
Proof. apply Forall_rev. Qed.

Lemma be_val_bound l : all_bytes l -> be_val l < 256 ^ N.of_nat (length l).
Proof.
  intros H. unfold be_val. rewrite <- (rev_length l). apply le_val_bound, all_bytes_rev, H.
Qed.

Lemma all_bytes_app a b : all_bytes (a ++ b) <-> all_bytes a /\ all_bytes b.
Proof. apply Forall_app. Qed.

Lemma all_bytes_concat l : Forall all_bytes l -> all_bytes (concat l).
Proof.
  induction 1; cbn; [constructor|]. apply all_bytes_app; auto.
Qed.

(** ** Shortest octets *)

Lemma last_cons_cons {A} (x y : A) l d : last (x :: y :: l) d = last (y :: l) d.
Proof. reflexivity. Qed.

Lemma le_val_pos l : all_bytes l -> l <> [] -> last l 1 <> 0 -> 0 < le_val l.
Proof.
  induction l as [|x l IH]; intros HB Hn Hl; [congruence|]. inversion HB; subst.
  cbn [le_val]. destruct l as [|y l].
  - cbn in Hl. lia.
  - rewrite last_cons_cons in Hl.
    assert (0 < le_val (y :: l)) by (apply IH; [auto|discriminate|auto]). lia.
Qed.

Lemma le_digits_unique f : forall n l,
  all_bytes l -> le_val l = n -> (l <> [] -> last l 1 <> 0) -> n < 2 ^ N.of_nat f -> le_digits f n = l.
Proof.
  induction f as [|f IH]; intros n l HB HV HL Hn.
  - assert (n = 0) by (cbn in Hn; lia). destruct l; [reflexivity|].
    assert (0 < le_val (n0 :: l)) by (apply le_val_pos; [auto|discriminate|apply HL; discriminate]). lia.
  - cbn [le_digits]. destruct (N.eqb_spec n 0) as [E|E].
    + destruct l; [reflexivity|].
      assert (0 < le_val (n0 :: l)) by (apply le_val_pos; [auto|discriminate|apply HL; discriminate]). lia.
    + destruct l as [|b l]; [cbn in HV; congruence|]. inversion HB as [|? ? Hb HB']; subst.
      cbn [le_val]. unfold is_byte in Hb.
      assert (E1 : (b + 256 * le_val l) mod 256 = b).
      { rewrite N.mul_comm, N.mod_add by lia. apply N.mod_small; lia. }
      assert (E2 : (b + 256 * le_val l) / 256 = le_val l).
      { rewrite N.mul_comm, N.div_add by lia. rewrite N.div_small by lia. lia. }
      rewrite E1, E2. f_equal. apply IH; auto.
      * intros Hne. destruct l; [congruence|]. apply (HL ltac:(discriminate)).
      * cbn [le_val] in Hn.
        replace (N.of_nat (S f)) with (N.of_nat f + 1) in Hn by lia.
        rewrite N.pow_add_r in Hn. change (2 ^ 1) with 2 in Hn. lia.
Qed.

Lemma le_digits_spec f : forall n, n < 2 ^ N.of_nat f ->
  all_bytes (le_digits f n) /\ le_val (le_digits f n) = n /\
  (le_digits f n <> [] -> last (le_digits f n) 1 <> 0).
Proof.
  induction f as [|f IH]; intros n Hn; cbn [le_digits].
  - cbn in Hn. assert (n = 0) by lia. subst. repeat split; [constructor|congruence].
  - destruct (N.eqb_spec n 0) as [->|E]; [repeat split; [constructor|congruence]|].
    replace (N.of_nat (S f)) with (N.of_nat f + 1) in Hn by lia.
    rewrite N.pow_add_r in Hn. change (2 ^ 1) with 2 in Hn.
    assert (Hd : n / 256 < 2 ^ N.of_nat f).
    { apply N.div_lt_upper_bound; lia. }
    destruct (IH _ Hd) as (A & B & D).
    split; [constructor; [apply N.mod_lt; lia|exact A]|]. split.
    + cbn [le_val]. rewrite B. pose proof (N.div_mod n 256). lia.
    + intros _. destruct (le_digits f (n / 256)) as [|y l] eqn:El.
      * cbn in *. intros C. pose proof (N.div_mod n 256). lia.
      * rewrite last_cons_cons. apply D. discriminate.
Qed.

Lemma size_nat_lt n : n < 2 ^ N.of_nat (N.size_nat n).
Proof.
  destruct n; [cbn; lia|].
  pose proof (N.size_gt (N.pos p)) as H.
  replace (N.of_nat (N.size_nat (N.pos p))) with (N.size (N.pos p)); [exact H|].
  clear H. change (N.pos (Pos.size p) = N.of_nat (Pos.size_nat p)).
  induction p as [p IH|p IH|]; [| |reflexivity];
    change (N.pos (Pos.succ (Pos.size p)) = N.of_nat (S (Pos.size_nat p)));
    rewrite Nat2N.inj_succ, <- IH; reflexivity.
Qed.

Lemma last_rev_hd (l : bytes) : (l <> [] -> last l 1 <> 0) <-> hd_error (rev l) <> Some 0.
Proof.
  destruct l as [|x l] using rev_ind; [cbn; split; intros; congruence|].
  rewrite last_last, rev_app_distr. cbn. split; [intros H E; injection E as ->; apply H; [|reflexivity]|].
  - destruct l; discriminate.
  - intros H _ ->. apply H. reflexivity.
Qed.

Lemma be_min_shortest n : shortest_be n (be_min n).
Proof.
  destruct (le_digits_spec _ n (size_nat_lt n)) as (A & B & D).
  unfold shortest_be, be_min. repeat split.
  - apply all_bytes_rev, A.
  - unfold be_val. rewrite rev_involutive. exact B.
  - exact (proj1 (last_rev_hd _) D).
Qed.

Lemma shortest_be_unique n ds : shortest_be n ds -> ds = be_min n.
Proof.
  intros (A & B & D). unfold be_min.
  rewrite (le_digits_unique (N.size_nat n) n (rev ds)).
  - symmetry. apply rev_involutive.
  - apply all_bytes_rev, A.
  - exact B.
  - rewrite <- (rev_involutive ds) in D. exact (proj2 (last_rev_hd _) D).
  - apply size_nat_lt.
Qed.

(** ** Length octets *)

Definition len_max : N := 256 ^ 126.

Lemma shortest_be_len n ds k : shortest_be n ds -> n < 256 ^ N.of_nat k -> (length ds <= k)%nat.
Proof.
  intros (A & B & D) H. destruct (Nat.leb_spec (length ds) k) as [|Hlt]; [assumption|exfalso].
  destruct ds as [|x ds]; [cbn in Hlt; lia|]. rewrite be_val_cons in B. cbn [length] in Hlt.
  cbn in D. assert (x <> 0) by congruence.
  assert (256 ^ N.of_nat k <= 256 ^ N.of_nat (length ds)) by (apply N.pow_le_mono_r; lia).
  assert (1 * 256 ^ N.of_nat (length ds) <= x * 256 ^ N.of_nat (length ds))
    by (apply N.mul_le_mono_r; lia). lia.
Qed.

Theorem der_len_correct n : n < len_max -> length_octets n (der_len n).
Proof.
  intros H. unfold der_len. destruct (N.ltb_spec n 128); [constructor; assumption|].
  apply LenLong; [assumption|apply be_min_shortest|].
  apply shortest_be_len with (n := n); [apply be_min_shortest|exact H].
Qed.

Theorem length_octets_unique n ds : length_octets n ds -> ds = der_len n.
Proof.
  intros H. unfold der_len. inversion H as [m Hm|m es Hm HS HL]; subst.
  - destruct (N.ltb_spec n 128); [reflexivity|lia].
  - destruct (N.ltb_spec n 128); [lia|]. rewrite <- (shortest_be_unique n es HS). reflexivity.
Qed.

Lemma firstn_app_exact {A} (a b : list A) : firstn (length a) (a ++ b) = a.
Proof. rewrite firstn_app, Nat.sub_diag, firstn_O, app_nil_r. apply firstn_all. Qed.
Lemma skipn_app_exact {A} (a b : list A) : skipn (length a) (a ++ b) = b.
Proof. rewrite skipn_app, Nat.sub_diag, skipn_all. reflexivity. Qed.

Lemma parse_length_octets n ds r : length_octets n ds -> parse_len (ds ++ r) = Some (n, r).
Proof.
  intros H. inversion H as [m Hm|m es Hm (HB & HV & HZ) HL]; subst; cbn [app parse_len].
  - destruct (N.ltb_spec n 128); [reflexivity|lia].
  - assert (Hne : es <> []).
    { intros ->. cbn in Hm. lia. }
    assert (0 < length es)%nat by (destruct es; [congruence|cbn; lia]).
    destruct (N.ltb_spec (128 + N.of_nat (length es)) 128); [lia|].
    replace (N.to_nat (128 + N.of_nat (length es) - 128)) with (length es) by lia.
    rewrite firstn_app_exact, skipn_app_exact.
    destruct (N.eqb_spec (128 + N.of_nat (length es)) 128); [lia|].
    destruct (N.leb_spec 255 (128 + N.of_nat (length es))); [lia|].
    destruct (Nat.ltb_spec (length (es ++ r)) (length es)); [rewrite app_length in *; lia|].
    destruct (N.ltb_spec (be_val es) 128); [lia|].
    cbn [orb]. destruct es as [|x es]; [congruence|].
    cbn in HZ. destruct x; [congruence|reflexivity].
Qed.

(** ** INTEGER contents *)

Theorem der_uint_correct v : int_octets (Z.of_N v) (der_uint v).
Proof.
  destruct (be_min_shortest v) as (A & B & D). unfold der_uint.
  destruct (be_min v) as [|b l] eqn:E.
  - cbn in B. subst v. repeat split. constructor; [reflexivity|constructor].
  - cbn in D. inversion A; subst. unfold is_byte in *.
    destruct (N.ltb_spec b 128).
    + split; [exact A|]. split.
      * cbn [signed_val]. destruct (N.ltb_spec b 128); [reflexivity|lia].
      * cbn. destruct l; [exact I|]. split; intros [X _]; subst; [congruence|lia].
    + split; [constructor; [reflexivity|exact A]|]. split.
      * cbn [signed_val]. destruct (N.ltb_spec 0 128); [|lia].
        f_equal. rewrite (be_val_cons 0). lia.
      * cbn. split; intros [X Y]; lia.
Qed.

Lemma signed_nonneg ds v : all_bytes ds -> signed_val ds = Z.of_N v -> ds <> [] ->
  be_val ds = v /\ hd 0 ds < 128.
Proof.
  intros HB HV Hn. destruct ds as [|b l]; [congruence|]. cbn [signed_val hd] in *.
  destruct (N.ltb_spec b 128); [split; lia|].
  pose proof (be_val_bound _ HB). lia.
Qed.

Theorem int_octets_unique v ds : int_octets (Z.of_N v) ds -> ds = der_uint v.
Proof.
  intros (HB & HV & HS). assert (Hne : ds <> []) by (intros ->; exact HS).
  destruct (signed_nonneg _ _ HB HV Hne) as [V H128].
  destruct ds as [|b l]; [congruence|]. cbn [hd] in H128. inversion HB; subst.
  unfold der_uint. destruct (N.eqb_spec b 0) as [->|Hb].
  - destruct l as [|b' l].
    + reflexivity.
    + cbn in HS. assert (Hb' : 128 <= b') by lia.
      assert (S : shortest_be (be_val (0 :: b' :: l)) (b' :: l)).
      { repeat split; [assumption|rewrite (be_val_cons 0); lia|cbn; intros E; injection E as ->; lia]. }
      rewrite <- (shortest_be_unique _ _ S). destruct (N.ltb_spec b' 128); [lia|reflexivity].
  - assert (S : shortest_be (be_val (b :: l)) (b :: l)).
    { repeat split; [assumption|cbn; congruence]. }
    rewrite <- (shortest_be_unique _ _ S). destruct (N.ltb_spec b 128); [reflexivity|lia].
Qed.

(** ** Decoding inverts encoding *)

Section DerInd.
  Variable Q : der -> Prop.
  Hypothesis HP : forall t c, Q (Prim t c).
  Hypothesis HC : forall t ks, Forall Q ks -> Q (Cons t ks).
  Hypothesis HW : forall t p ks, Forall Q ks -> Q (Wrap t p ks).
  Hypothesis HO : forall b, Q (Opaque b).
  Fixpoint der_ind' (t : der) : Q t :=
    let go := (fix go (l : list der) : Forall Q l :=
                 match l with
                 | [] => Forall_nil Q
                 | x :: r => Forall_cons x (der_ind' x) (go r)
                 end) in
    match t with
    | Prim t c => HP t c
    | Cons t ks => HC t ks (go ks)
    | Wrap t p ks => HW t p ks (go ks)
    | Opaque b => HO b
    end.
End DerInd.

Lemma proper_cons tag ks : proper (Cons tag ks) <-> cons_tag tag /\ Forall proper ks.
Proof.
  cbn [proper]. split; intros [A B]; split; auto.
  - clear A. induction ks; constructor; [apply B|apply IHks, B].
  - clear A. induction B; [exact I|split; auto].
Qed.
Lemma proper_wrap tag pre ks :
  proper (Wrap tag pre ks) <-> prim_tag tag /\ all_bytes pre /\ Forall proper ks.
Proof.
  cbn [proper]. split; intros (A & B & D); repeat split; auto.
  - apply A. - apply A. - apply A. - clear A B. induction ks; constructor; [apply D|apply IHks, D].
  - apply A. - apply A. - apply A. - clear A B. induction D; [exact I|split; auto].
Qed.

Fixpoint depth (t : der) : nat :=
  match t with
  | Cons _ ks => S (fold_right Nat.max 0%nat (map depth ks))
  | _ => 1%nat
  end.

Definition small (t : der) : Prop := N.of_nat (length (enc t)) < len_max.

Lemma tlv_length L tag c : length (tlv L tag c) = S (length (L (N.of_nat (length c))) + length c).
Proof. unfold tlv. cbn [length]. rewrite app_length. reflexivity. Qed.

Lemma concat_kid_small {A} (x : list A) l : In x l -> (length x <= length (concat l))%nat.
Proof.
  induction l as [|y l IH]; cbn; [tauto|]. rewrite app_length. intros [->|H]; [lia|]. specialize (IH H). lia.
Qed.

Definition all_parse (f : nat) :=
  fix all (g : nat) (c : bytes) : option (list der) :=
    match c with
    | [] => Some []
    | _ =>
        match g with
        | O => None
        | S g' =>
            match parse f c with
            | None => None
            | Some (t, r) =>
                match all g' r with None => None | Some ts => Some (t :: ts) end
            end
        end
    end.

Lemma enc_nonempty t : proper t -> enc t <> [].
Proof. destruct t; cbn; [discriminate..|tauto]. Qed.

Lemma all_parse_kids f ks : forall g,
  Forall (fun t => forall rest, parse f (enc t ++ rest) = Some (flat t, rest)) ks ->
  Forall proper ks ->
  (length (concat (map enc ks)) <= g)%nat ->
  all_parse f g (concat (map enc ks)) = Some (map flat ks).
Proof.
  induction ks as [|t ks IH]; intros g HF HP Hg; cbn [map concat].
  - destruct g; reflexivity.
  - inversion HF; subst. inversion HP; subst. cbn [map concat] in Hg. rewrite app_length in Hg.
    assert (Hn := enc_nonempty t ltac:(assumption)).
    assert (0 < length (enc t))%nat by (destruct (enc t); [congruence|cbn; lia]).
    destruct g as [|g]; [lia|].
    destruct (enc t ++ concat (map enc ks)) as [|z zs] eqn:E.
    { apply app_eq_nil in E. tauto. }
    cbn [all_parse]. rewrite <- E, H1. fold (all_parse f). rewrite IH; auto. lia.
Qed.

Theorem parse_enc t : forall f rest, proper t -> small t -> (depth t <= f)%nat ->
  parse f (enc t ++ rest) = Some (flat t, rest).
Proof.
  induction t as [tag c|tag ks IH|tag pre ks IH|b] using der_ind'; intros f rest HP HS HD.
  - destruct HP as [(T1 & T2 & T3) HB]. destruct f as [|f]; [cbn in HD; lia|].
    unfold small, enc in *. cbn [enc_with] in *. rewrite tlv_length in HS.
    unfold tlv. cbn [app parse].
    destruct (N.eqb_spec (tag mod 32) 31); [congruence|].
    rewrite <- app_assoc, (parse_length_octets (N.of_nat (length c)));
      [|apply der_len_correct; lia].
    destruct (N.ltb_spec (N.of_nat (length (c ++ rest))) (N.of_nat (length c)));
      [rewrite app_length in *; lia|].
    rewrite T2, Nat2N.id, firstn_app_exact, skipn_app_exact. reflexivity.
  - apply proper_cons in HP. destruct HP as [(T1 & T2 & T3) HK].
    destruct f as [|f]; [cbn in HD; lia|].
    unfold small, enc in HS. cbn [enc_with] in HS. fold enc in HS. rewrite tlv_length in HS.
    change (enc (Cons tag ks)) with (tlv der_len tag (concat (map enc ks))).
    set (c := concat (map enc ks)) in *. unfold tlv. cbn [app parse].
    destruct (N.eqb_spec (tag mod 32) 31); [congruence|].
    rewrite <- app_assoc, (parse_length_octets (N.of_nat (length c)));
      [|apply der_len_correct; lia].
    destruct (N.ltb_spec (N.of_nat (length (c ++ rest))) (N.of_nat (length c)));
      [rewrite app_length in *; lia|].
    rewrite T2, Nat2N.id, firstn_app_exact, skipn_app_exact.
    fold (all_parse f). unfold c at 1 2. rewrite all_parse_kids; [reflexivity| |assumption|lia].
    rewrite Forall_forall in *. intros t Ht r.
    apply IH; auto.
    + unfold small. assert (length (enc t) <= length c)%nat by (apply concat_kid_small, in_map, Ht). lia.
    + cbn [depth] in HD. assert (depth t <= fold_right Nat.max 0 (map depth ks))%nat; [|lia].
      clear -Ht. induction ks as [|y ks IHk]; [destruct Ht|].
      cbn [map fold_right]. destruct Ht as [->|Ht]; [lia|]. specialize (IHk Ht). lia.
  - apply proper_wrap in HP. destruct HP as [(T1 & T2 & T3) [HB HK]].
    destruct f as [|f]; [cbn in HD; lia|].
    unfold small, enc in HS. cbn [enc_with] in HS. fold enc in HS. rewrite tlv_length in HS.
    change (enc (Wrap tag pre ks)) with (tlv der_len tag (pre ++ concat (map enc ks))).
    cbn [flat]. set (c := pre ++ concat (map enc ks)) in *. unfold tlv. cbn [app parse].
    destruct (N.eqb_spec (tag mod 32) 31); [congruence|].
    rewrite <- app_assoc, (parse_length_octets (N.of_nat (length c)));
      [|apply der_len_correct; lia].
    destruct (N.ltb_spec (N.of_nat (length (c ++ rest))) (N.of_nat (length c)));
      [rewrite app_length in *; lia|].
    rewrite T2, Nat2N.id, firstn_app_exact, skipn_app_exact. reflexivity.
  - destruct HP.
Qed.

Lemma depth_le_length t : proper t -> (depth t <= length (enc t))%nat.
Proof.
  induction t as [tag c|tag ks IH|tag pre ks IH|b] using der_ind'; intros HP.
  - cbn. lia.
  - apply proper_cons in HP. destruct HP as [_ HK].
    change (enc (Cons tag ks)) with (tlv der_len tag (concat (map enc ks))). rewrite tlv_length.
    cbn [depth]. apply le_n_S.
    assert (fold_right Nat.max 0 (map depth ks) <= length (concat (map enc ks)))%nat; [|lia].
    induction ks as [|y ks IHk]; [cbn; lia|]. inversion IH; inversion HK; subst.
    cbn [map fold_right concat]. rewrite app_length.
    specialize (IHk ltac:(assumption) ltac:(assumption)). specialize (H1 ltac:(assumption)). lia.
  - cbn. lia.
  - destruct HP.
Qed.

Theorem enc_decodes t : proper t -> small t -> decodes (enc t) (flat t).
Proof.
  intros HP HS. unfold decodes. pose proof (depth_le_length t HP).
  rewrite <- (app_nil_r (enc t)) at 2. apply parse_enc; auto.
Qed.

(** ** The decoder accepts nothing but encodings *)

Lemma bytes_firstn n l : all_bytes l -> all_bytes (firstn n l).
Proof. intros H. rewrite <- (firstn_skipn n l) in H. apply all_bytes_app in H. tauto. Qed.
Lemma parse_len_sound b n r : all_bytes b -> parse_len b = Some (n, r) -> exists ds, b = ds ++ r /\ length_octets n ds.
Proof.
  intros HB H. destruct b as [|x b]; [discriminate|]. cbn [parse_len] in H. inversion HB as [|? ? Hx HB']; subst.
  destruct (N.ltb_spec x 128) as [L|L].
  - injection H as <- <-. exists [x]. split; [reflexivity|]. constructor. exact L.
  - cbv zeta in H. destruct (N.eqb_spec x 128) as [|E1]; [discriminate|]. destruct (N.leb_spec 255 x) as [|E2]; [discriminate|].
    cbn [orb] in H. set (k := N.to_nat (x - 128)) in *. destruct (Nat.ltb_spec (length b) k) as [|E3]; [discriminate|]. cbn [orb] in H.
    destruct (match firstn k b with 0 :: _ => true | _ => false end) eqn:E4; [discriminate|]. cbn [orb] in H.
    destruct (N.ltb_spec (be_val (firstn k b)) 128) as [|E5]; [discriminate|]. injection H as <- <-.
    assert (LK : length (firstn k b) = k) by (rewrite firstn_length; lia).
    exists (x :: firstn k b). cbn [app]. rewrite firstn_skipn. split; [reflexivity|].
    assert (EX : 128 + N.of_nat (length (firstn k b)) = x) by (rewrite LK; unfold k; lia).
    pose proof (LenLong (be_val (firstn k b)) (firstn k b)) as Q. rewrite EX in Q.
    apply Q; [exact E5| |unfold k in *; lia].
    split; [apply bytes_firstn, HB'|]. split; [reflexivity|]. intros Z. destruct (firstn k b) as [|y l]; [discriminate|].
    cbn [hd_error] in Z. injection Z as ->. discriminate E4.
Qed.

Lemma all_parse_sound f : (forall b t r, all_bytes b -> parse f b = Some (t, r) -> b = enc t ++ r /\ proper t /\ flat t = t) ->
  forall g c ks, all_bytes c -> all_parse f g c = Some ks -> c = concat (map enc ks) /\ Forall proper ks /\ map flat ks = ks.
Proof.
  intros IH. induction g as [|g IHg]; intros c ks HB H.
  - destruct c as [|x c]; [|discriminate]. injection H as <-. auto.
  - destruct c as [|x c]; [injection H as <-; auto|]. cbn [all_parse] in H. fold (all_parse f) in H.
    destruct (parse f (x :: c)) as [[t r]|] eqn:E; [|discriminate]. destruct (all_parse f g r) as [ts|] eqn:E2; [|discriminate].
    injection H as <-. destruct (IH _ _ _ HB E) as (E3 & P3 & F3). rewrite E3 in *.
    apply all_bytes_app in HB as [_ HB]. destruct (IHg _ _ HB E2) as (E4 & P4 & F4). cbn [map concat].
    split; [rewrite E4 at 1; reflexivity|]. split; [constructor; assumption|]. rewrite F3, F4. reflexivity.
Qed.

Theorem parse_sound f : forall b t r, all_bytes b -> parse f b = Some (t, r) -> b = enc t ++ r /\ proper t /\ flat t = t.
Proof.
  induction f as [|f IH]; intros b t r HB H; [discriminate|]. destruct b as [|tag b]; [discriminate|]. cbn [parse] in H.
  inversion HB as [|? ? Ht HB']; subst. unfold is_byte in Ht.
  destruct (N.eqb_spec (tag mod 32) 31) as [|T3]; [discriminate|].
  destruct (parse_len b) as [[n b2]|] eqn:EL; [|discriminate].
  destruct (parse_len_sound _ _ _ HB' EL) as (ds & -> & HD). apply all_bytes_app in HB' as [_ HB2].
  destruct (N.ltb_spec (N.of_nat (length b2)) n) as [|L]; [discriminate|]. cbv zeta in H.
  assert (LN : N.of_nat (length (firstn (N.to_nat n) b2)) = n) by (rewrite firstn_length; lia).
  assert (EB : ds ++ b2 = (ds ++ firstn (N.to_nat n) b2) ++ skipn (N.to_nat n) b2) by (rewrite <- app_assoc, firstn_skipn; reflexivity).
  apply length_octets_unique in HD. destruct (N.testbit tag 5) eqn:T5.
  - fold (all_parse f) in H. destruct (all_parse f _ _) as [ks|] eqn:EK; [|discriminate]. injection H as <- <-.
    destruct (all_parse_sound f IH _ _ _ (bytes_firstn _ _ HB2) EK) as (E & PK & FK). split; [|split].
    + change (enc (Cons tag ks)) with (tlv der_len tag (concat (map enc ks))). unfold tlv. cbn [app]. rewrite <- E, LN, <- HD. f_equal. exact EB.
    + apply proper_cons. split; [split; [exact Ht|split; assumption]|exact PK].
    + cbn [flat]. rewrite FK. reflexivity.
  - injection H as <- <-. split; [|split].
    + change (enc (Prim tag ?c)) with (tlv der_len tag c). unfold tlv. cbn [app]. rewrite LN, <- HD. f_equal. exact EB.
    + cbn [proper]. split; [split; [exact Ht|split; assumption]|apply bytes_firstn, HB2].
    + reflexivity.
Qed.
