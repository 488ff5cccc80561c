(** X509Odd.v -- what a verifier makes of an output whose SVNs are not even: the last
    field of the signed part declares a length it does not have, so the signed part
    is never read as having the fields it should have. *)
From Verif Require Import Base Errors Types Env StateOps Wire Instance Commands X509 X509Cert Lib Der DerProofs X509Run X509Spec
  X509Bytes X509Enc X509Tbs X509Cms Spec Exec Forest Codec Walk Measure X509Out X509Proper X509Gen X509Read X509ReadOk X509Made
  X509Total X509Sane X509Cmd.
Open Scope N_scope.

(** ** Reading a field of the wrong size *)

Lemma parse_mis_sized f tag D rest t r : D < len_max -> len rest <> D ->
  parse f (tag :: der_len D ++ rest) = Some (t, r) -> r <> [].
Proof.
  intros HD HN H. destruct f as [|f]; [discriminate|]. cbn [parse] in H.
  destruct (N.eqb _ 31); [discriminate|].
  rewrite (parse_length_octets D _ _ (der_len_correct D HD)) in H. unfold len in HN.
  destruct (N.ltb_spec (N.of_nat (length rest)) D) as [|L]; [discriminate|].
  assert (HS : skipn (N.to_nat D) rest <> []).
  { intros Z. apply (f_equal (@length N)) in Z. rewrite skipn_length in Z. cbn [length] in Z. lia. }
  destruct (N.testbit tag 5).
  - fold (all_parse f) in H. destruct (all_parse f _ _); [|discriminate]. congruence.
  - congruence.
Qed.
Lemma all_parse_some f g c ks : all_parse f g c = Some ks -> c <> [] -> ks <> [].
Proof.
  destruct c as [|x c]; [congruence|]. intros H _. destruct g as [|g]; [discriminate|]. cbn [all_parse] in H.
  destruct (parse f (x :: c)) as [[t r]|]; [|discriminate]. destruct (all_parse f g r); [|discriminate]. congruence.
Qed.
Lemma all_parse_odd f tag D rest : D < len_max -> len rest <> D -> forall l g ks,
  Forall proper l -> Forall small l -> Forall (fun t => (depth t <= f)%nat) l ->
  all_parse f g (concat (map enc l) ++ tag :: der_len D ++ rest) = Some ks -> length ks <> S (length l).
Proof.
  intros HD HN. induction l as [|t l IH]; intros g ks HP HS HF H.
  - cbn [map concat app] in H. destruct g as [|g]; [discriminate|]. cbn [all_parse] in H.
    destruct (parse f (tag :: der_len D ++ rest)) as [[t r]|] eqn:E; [|discriminate].
    apply (parse_mis_sized _ _ _ _ _ _ HD HN) in E. fold (all_parse f) in H.
    destruct (all_parse f g r) as [ts|] eqn:E2; [|discriminate]. apply (all_parse_some _ _ _ _ E2) in E.
    injection H as <-. cbn [length]. destruct ts; [congruence|cbn [length]; lia].
  - inversion HP; subst. inversion HS; subst. inversion HF; subst. cbn [map concat] in H. rewrite <- app_assoc in H.
    pose proof (enc_nonempty t ltac:(assumption)) as NE.
    destruct (enc t ++ concat (map enc l) ++ tag :: der_len D ++ rest) as [|z zs] eqn:E.
    { apply app_eq_nil in E. tauto. }
    destruct g as [|g]; [discriminate|]. cbn [all_parse] in H. rewrite <- E, parse_enc in H by assumption.
    fold (all_parse f) in H. destruct (all_parse f g _) as [ts|] eqn:E2; [|discriminate].
    apply IH in E2; [|assumption..]. injection H as <-. cbn [length]. congruence.
Qed.

Lemma depth_small t n : proper t -> (length (enc t) <= n)%nat -> (depth t <= n)%nat.
Proof. intros H1 H2. pose proof (depth_le_length t H1). lia. Qed.

Lemma parse_seq f c tail t r : N.of_nat (length c) < len_max ->
  parse (S f) (tlv der_len 0x30 c ++ tail) = Some (t, r) ->
  r = tail /\ exists ks, t = Cons 0x30 ks /\ all_parse f (length c) c = Some ks.
Proof.
  intros HL H. unfold tlv in H. cbn [app parse] in H.
  change (N.eqb (0x30 mod 32) 31) with false in H. cbv iota in H.
  rewrite <- app_assoc, (parse_length_octets (N.of_nat (length c))) in H by (apply der_len_correct, HL).
  destruct (N.ltb_spec (N.of_nat (length (c ++ tail))) (N.of_nat (length c))) as [X|_]; [rewrite app_length in X; lia|].
  rewrite Nat2N.id, firstn_app_exact, skipn_app_exact in H. change (N.testbit 0x30 5) with true in H. cbv iota in H.
  fold (all_parse f) in H. destruct (all_parse f (length c) c) as [ks|]; [|discriminate].
  injection H as <- <-. split; [reflexivity|]. exists ks. auto.
Qed.

(** A SEQUENCE whose last field has the wrong size. *)
Lemma parse_odd l tag D rest f tail t r :
  let c := concat (map enc l) ++ tag :: der_len D ++ rest in
  D < len_max -> len rest <> D -> Forall proper l -> N.of_nat (length c) < len_max -> (length c < f)%nat ->
  parse f (tlv der_len 0x30 c ++ tail) = Some (t, r) ->
  exists ks, t = Cons 0x30 ks /\ length ks <> S (length l).
Proof.
  intros c HD HN HP HL HF H. destruct f as [|f]; [lia|].
  apply parse_seq in H as (_ & ks & -> & E); [|exact HL]. exists ks. split; [reflexivity|].
  assert (KL : forall k, In k l -> (length (enc k) <= length c)%nat).
  { intros k Hk. unfold c. rewrite app_length. pose proof (concat_kid_small (enc k) (map enc l) (in_map _ _ _ Hk)). lia. }
  refine (all_parse_odd f tag D rest HD HN l (length c) ks HP _ _ E).
  - apply Forall_forall. intros k Hk. specialize (KL k Hk). unfold small. lia.
  - rewrite Forall_forall in *. intros k Hk. apply depth_small; [apply HP, Hk|]. specialize (KL k Hk). lia.
Qed.

(** A signed structure around it. *)
Lemma signed_odd p l tag D rest g m :
  let x := SEQUENCE (l ++ [Opaque (tag :: der_len D ++ rest)]) in
  D < len_max -> len rest <> D -> Forall proper l -> small (signed p x g) ->
  signed_members p (enc (signed p x g)) = Some m -> length m <> S (length l).
Proof.
  intros x HD HN HP HS H.
  set (c := concat (map enc l) ++ tag :: der_len D ++ rest).
  assert (EX : enc x = tlv der_len 0x30 c).
  { unfold x, SEQUENCE, enc, c. cbn [enc_with]. rewrite map_app, concat_app. cbn [map concat enc_with]. rewrite app_nil_r. reflexivity. }
  set (tail := enc (alg_id (sig_alg_oid p)) ++ enc (signature_bits g)).
  assert (EB : enc (signed p x g) = tlv der_len 0x30 (enc x ++ tail)).
  { unfold signed, tail. unfold SEQUENCE at 1. unfold enc at 1. cbn [enc_with map concat]. rewrite app_nil_r. reflexivity. }
  unfold small in HS. rewrite EB, tlv_length in HS.
  unfold signed_members, decode in H. rewrite EB in H.
  destruct (parse _ _) as [[t r]|] eqn:E in H; [|discriminate].
  rewrite <- (app_nil_r (tlv _ _ _)) in E. apply parse_seq in E as (-> & ks & -> & E); [|lia].
  cbn [obind members N.eqb Pos.eqb] in H. destruct ks as [|t0 [|a [|b [|? ?]]]]; try discriminate.
  destruct (guard _); [|discriminate]. cbn [obind] in H.
  assert (HL : (length c <= length (enc x))%nat) by (rewrite EX, tlv_length; lia).
  rewrite app_nil_r, tlv_length in E. rewrite app_length in HS, E.
  set (f := S _) in E.
  destruct (enc x ++ tail) as [|z zs] eqn:EZ.
  { rewrite EX in EZ. discriminate. }
  replace (length (enc x) + length tail)%nat with (S (length zs)) in E
    by (rewrite <- app_length, EZ; reflexivity).
  cbn [all_parse] in E. rewrite <- EZ in E.
  destruct (parse f (enc x ++ tail)) as [[t r]|] eqn:E1; [|discriminate]. fold (all_parse f) in E.
  destruct (all_parse f (length zs) r) as [ts|]; [|discriminate]. injection E as -> _.
  rewrite EX in E1. apply parse_odd in E1; [|exact HD|exact HN|exact HP|fold c; lia|fold c; unfold f; lia].
  destruct E1 as (ks & -> & HK). cbn [members N.eqb Pos.eqb] in H. congruence.
Qed.

Lemma kid_len tag k ks : In k ks -> (length (enc k) <= length (enc (Cons tag ks)))%nat.
Proof.
  intros H. change (enc (Cons tag ks)) with (tlv der_len tag (concat (map enc ks))). rewrite tlv_length.
  pose proof (concat_kid_small (enc k) (map enc ks) (in_map enc _ _ H)). lia.
Qed.
Lemma wide_below tag l : wide (Cons tag l) -> len (enc (Cons tag l)) < 65540.
Proof.
  intros H. pose proof (len_E_wide tag l (wide_len tag l H)) as L. rewrite <- E_enc; [exact L|].
  apply N.lt_trans with 65540; [exact L|lia].
Qed.

(** A field that is [mis_sized] is one whose DER length is wrong. *)
Lemma signed_mis_sized p l tag b g m :
  let x := SEQUENCE (l ++ [Opaque b]) in
  mis_sized tag b -> Forall proper l -> len (enc (signed p x g)) < 65540 ->
  signed_members p (enc (signed p x g)) = Some m -> length m <> S (length l).
Proof.
  intros x (D & rest & -> & HN & HB) HP HL.
  assert (L1 : (length (enc x) <= length (enc (signed p x g)))%nat) by (apply (kid_len 0x30); left; reflexivity).
  assert (L2 : (length (tag :: code_len D ++ rest) <= length (enc x))%nat).
  { apply (kid_len 0x30 (Opaque _)). apply in_or_app. right. left. reflexivity. }
  cbn [length] in L2. rewrite app_length in L2. unfold len in *.
  assert (LM : 65540 * 2 < len_max) by (apply N.ltb_lt; vm_compute; reflexivity).
  assert (BD : D < 2 ^ 32) by lia. unfold x in *. clear x. rewrite (code_len_der D BD) in *. apply signed_odd; [lia|exact HN|exact HP|].
  unfold small. lia.
Qed.

(** Any bytes can be the content of a request. *)
Lemma content_opaque p v csr si : enc (content_info (signed_data p v csr si)) =
  enc (content_info (SEQUENCE [ INTEGER v; SET [alg_id (digest_oid p)];
                                SEQUENCE [OID id_data; CTX 0 [OCTETS (enc csr)]]; SET [si] ])).
Proof.
  unfold content_info, signed_data, OCTETS_OF, OCTETS, SEQUENCE, CTX, enc. cbn [enc_with map concat app].
  rewrite !app_nil_r. reflexivity.
Qed.
Lemma read_content_bytes p v csr si : let m := content_info (signed_data p v csr si) in
  proper si -> all_bytes (enc csr) -> small m -> read_content (enc m) = Some (enc csr).
Proof.
  intros m HP HB HS. unfold m, small in *. clear m. rewrite content_opaque in *.
  match goal with |- read_content (enc ?t) = _ => set (m' := t) in * end.
  assert (PM : proper m').
  { apply proper_content_info. prop; try apply proper_alg; try exact HB; try exact HP. }
  unfold read_content. rewrite (decode_enc _ PM HS). cbn [obind].
  unfold m', content_info. change (SEQUENCE ?l) with (Cons 0x30 l). rewrite members_flat. cbn [obind map]. rewrite is_oid_self. cbn [guard obind].
  unfold CTX. change (160 + 0) with 0xA0. rewrite read_one_flat. cbn [obind]. rewrite members_flat. cbn [obind map].
  rewrite members_flat. cbn [obind map]. rewrite is_oid_self. cbn [guard obind]. rewrite read_one_flat. reflexivity.
Qed.
Lemma content_len p v csr si : N.of_nat (length (enc csr)) <= N.of_nat (length (enc (content_info (signed_data p v csr si)))).
Proof.
  rewrite content_opaque. set (o := OCTETS (enc csr)).
  assert (L0 : (length (enc csr) <= length (enc o))%nat).
  { change (enc o) with (tlv der_len 0x04 (enc csr)). rewrite tlv_length. lia. }
  set (c := CTX 0 [o]). assert (L1 : (length (enc o) <= length (enc c))%nat) by (apply kid_len; left; reflexivity).
  set (e := SEQUENCE [OID id_data; c]). assert (L2 : (length (enc c) <= length (enc e))%nat) by (apply (kid_len 0x30); right; left; reflexivity).
  set (d := SEQUENCE [INTEGER v; SET [alg_id (digest_oid p)]; e; SET [si]]).
  assert (L3 : (length (enc e) <= length (enc d))%nat) by (apply (kid_len 0x30); do 2 right; left; reflexivity).
  assert (L4 : (length (enc d) <= length (enc (CTX 0 [d])))%nat) by (apply kid_len; left; reflexivity).
  assert (L5 : (length (enc (CTX 0 [d])) <= length (enc (content_info d)))%nat) by (apply (kid_len 0x30); right; left; reflexivity).
  lia.
Qed.

Section Odd.
  Variable cf : config.
  Hypothesis Hcf : config_ok cf.
  Context {C P : Type}.
  Variable co : crypto_ops C.
  Variable po : platform_ops P.
  Notation drafted := (drafted cf C P co po).

  Lemma tbs_fields k x idn : draft_bytes k x -> proper idn ->
    Forall proper [ CTX 0 [INTEGER 2]; INTEGER (be_val (firstn 20 (ds_bytes (nm_serial (dr_subject x)))));
      alg_id (sig_alg_oid (prof cf)); idn;
      SEQUENCE [GENERALIZED_TIME (cv_not_before (dr_validity x)); GENERALIZED_TIME (cv_not_after (dr_validity x))];
      name_der (dr_subject x); subject_public_key_info (dr_pubkey x) ].
  Proof.
    intros B HI. pose proof (draft_name_proper k x B) as HN. destruct (db_validity _ _ B) as [[V1 V2] _].
    repeat (apply Forall_cons; [first [exact HI|exact HN|apply proper_spki|apply proper_alg|prop]|]). apply Forall_nil.
  Qed.
  Lemma info_fields k x : draft_bytes k x ->
    Forall proper [ INTEGER 0; name_der (dr_subject x); subject_public_key_info (dr_pubkey x) ].
  Proof.
    intros B. pose proof (draft_name_proper k x B) as HN.
    repeat (apply Forall_cons; [first [exact HN|apply proper_spki|prop]|]). apply Forall_nil.
  Qed.

  Lemma draft_md_bytes k a s x : all_bytes (ca_ueid a) -> draft_bytes k x -> md_bytes s (draft_md k a s x).
  Proof.
    intros HU B. split; [reflexivity|]. cbn [draft_md md_label md_ski md_aki md_san]. split; [exact HU|].
    split; [apply (db_ski _ _ B)|]. split; [apply (db_aki _ _ B)|].
    pose proof (db_san _ _ B) as HN. destruct (dr_san x); [|exact I]. split; apply HN.
  Qed.

  (** No certificate or request is read if the SVNs are not even. *)
  Theorem certificate_odd k a off w r w' i cts :
    create_cert cf C P co po k a off w = (Ok r, w') -> kind_csr k = false ->
    wf cf (w_st w) -> keys_fit cf co -> issuer_der po ->
    first_slot (names (w_st w) (ca_handle a) (ca_locality a)) i -> lineage (w_st w) i cts -> ~ even_svns cts ->
    certificate_exts (prof cf) (firstn (N.to_nat (cr_size r)) (skipn off (w_out w'))) = None.
  Proof.
    intros H HC W HK HI HF HL HE.
    assert (HKr : key_of (prof cf) (cr_pubkey r)).
    { pose proof (made_inv cf co po _ _ _ _ _ _ H) as (x & wd & n & wr & HD & _ & _ & _ & _ & _ & Epk & _).
      rewrite Epk. eapply drafted_key; eauto. }
    apply certificate_made_around in H as (x & wd & HD & Ek & T); [|assumption..].
    destruct (drafted_issuer cf co po _ _ _ _ _ HI HC HD) as (idn & HP & HQ).
    pose proof (drafted_idx cf co po _ _ _ _ _ _ HD HF) as Ei. subst i.
    destruct (rexts_odd cf Hcf (w_st w) W (dr_idx x) cts HL (draft_md k a (w_st w) x) eq_refl eq_refl (ca_critical a) HE) as (b & Hb & HM).
    destruct (T (Opaque b) idn Hb HQ) as (g & Hg & En & HB & HO & Wt & Ws). clear T.
    cbv zeta in *. rewrite HO, cut by assumption.
    pose proof (drafted_bytes _ _ _ _ _ _ _ _ _ _ HD) as B.
    unfold certificate_exts. destruct (signed_members _ _) as [m|] eqn:EM; [|reflexivity]. cbn [obind].
    apply (signed_mis_sized (prof cf) _ 0xA3 b g m HM (tbs_fields k x idn B HP) (wide_below _ _ Ws)) in EM.
    destruct m as [|? [|? [|? [|? [|? [|? [|? [|? [|? ?]]]]]]]]]; try reflexivity. exfalso. apply EM. reflexivity.
  Qed.
  Theorem request_odd k a off w r w' i cts :
    create_cert cf C P co po k a off w = (Ok r, w') -> kind_csr k = true ->
    wf cf (w_st w) -> all_bytes (ca_ueid a) -> keys_fit cf co -> signer_der po ->
    first_slot (names (w_st w) (ca_handle a) (ca_locality a)) i -> lineage (w_st w) i cts -> ~ even_svns cts ->
    exists csr, read_content (firstn (N.to_nat (cr_size r)) (skipn off (w_out w'))) = Some csr /\
      csr_exts (prof cf) csr = None.
  Proof.
    intros H HC W HU HK HI HF HL HE.
    assert (HKr : key_of (prof cf) (cr_pubkey r)).
    { pose proof (made_inv cf co po _ _ _ _ _ _ H) as (x & wd & n & wr & HD & _ & _ & _ & _ & _ & Epk & _).
      rewrite Epk. eapply drafted_key; eauto. }
    apply request_made_around in H as (x & wd & HD & Ek & T); [|assumption..].
    destruct (drafted_sid cf co po _ _ _ _ _ HI HD) as (sidt & HP & HQ & _ & _).
    pose proof (drafted_idx cf co po _ _ _ _ _ _ HD HF) as Ei. subst i.
    pose proof (drafted_bytes _ _ _ _ _ _ _ _ _ _ HD) as B.
    assert (HMd : md_bytes (w_st w) (draft_md k a (w_st w) x)) by (apply draft_md_bytes; assumption).
    destruct (rattrs_odd cf Hcf (w_st w) W (dr_idx x) cts HL (draft_md k a (w_st w) x) eq_refl eq_refl (ca_critical a) HE) as (b & Hb & HM).
    pose proof (bytes_rattrs cf _ _ _ W HMd _ Hb) as BB.
    destruct (T (Opaque b) sidt Hb HQ) as (g1 & c1 & g2 & Hg1 & Hg2 & En & HB & HO & Wt & Ws). clear T.
    cbv zeta in *. rewrite HO, cut by assumption. clear HO HB.
    set (info := info_around x (Opaque b)) in *. set (csr := signed (prof cf) info g1) in *.
    set (v := syntax_version (dr_sid x)) in *. set (si := signer_info (prof cf) v sidt g2) in *. rewrite En in Ws. clear En.
    assert (LC : len (enc csr) < 65540).
    { apply N.le_lt_trans with (2 := Ws). unfold len. apply content_len. }
    assert (BC : all_bytes (enc csr)).
    { assert (EE : E csr = enc csr) by (apply enc_E; lia). rewrite <- EE. apply bytey_E.
      unfold csr, signed, SEQUENCE. apply bytey_kids; [reflexivity|]. apply Forall_cons.
      - unfold info, info_around, SEQUENCE. apply bytey_kids; [reflexivity|]. unfold info_items.
        pose proof (info_fields k x B) as HF3. inversion_clear HF3 as [|? ? F1 HF2]. inversion_clear HF2 as [|? ? F2 HF1].
        inversion_clear HF1 as [|? ? F3 _].
        repeat (apply Forall_cons; [first [apply proper_bytey; assumption|exact BB]|]). apply Forall_nil.
      - apply Forall_cons; [apply proper_bytey, proper_alg|]. apply Forall_cons; [apply proper_bytey, proper_sig_bits|apply Forall_nil]. }
    exists (enc csr). split.
    - apply read_content_bytes; [apply proper_signer_info, HP|exact BC|].
      apply (small_below _ 65540); [exact Ws|]. apply N.leb_le. vm_compute. reflexivity.
    - unfold csr_exts. destruct (signed_members _ _) as [m|] eqn:EM; [|reflexivity]. cbn [obind].
      apply (signed_mis_sized (prof cf) _ 0xA0 b g1 m HM (info_fields k x B) LC) in EM.
      destruct m as [|? [|? [|? [|? [|? ?]]]]]; try reflexivity. exfalso. apply EM. reflexivity.
  Qed.
End Odd.
