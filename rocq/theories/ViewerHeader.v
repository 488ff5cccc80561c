(** ViewerHeader.v -- what the viewer finds if it skips too much of a response. *)
From Verif Require Import Base Errors Types StateOps Env Wire Instance Commands Lib Spec Exec Effects Forest History Contract Codec Steps Reach CommandSpecs
  Responses Execute Walk Measure Der DerProofs X509 X509Cert X509Run X509Spec X509Bytes X509Proper X509Gen X509Out X509Read
  X509ReadOk X509Made X509Total X509Sane X509Odd X509Cmd X509Facts X509Size Viewer ViewerProofs ViewerCmd.
Open Scope N_scope.

Lemma proper_bytes t : proper t -> len (enc t) < 2 ^ 32 -> all_bytes (enc t).
Proof.
  intros HP HS. assert (EE : E t = enc t) by (apply enc_E; exact HS). rewrite <- EE. apply bytey_E, proper_bytey, HP.
Qed.
Lemma long_len n : 256 <= n < 65536 -> exists hi lo, der_len n = [0x82; hi; lo].
Proof.
  intros H. unfold der_len. destruct (N.ltb_spec n 128); [lia|]. destruct (be_min_shortest n) as (A & B & D).
  destruct (be_min n) as [|a [|b [|c l]]].
  - cbn in B. lia.
  - exfalso. inversion A as [|? ? Ha _]; subst. unfold is_byte in Ha. change (be_val [a]) with (a + 256 * 0) in *. lia.
  - exists a, b. reflexivity.
  - exfalso. pose proof (shortest_be_len n (a :: b :: c :: l) 2 (conj A (conj B D))) as X. cbn [length] in X.
    assert (n < 256 ^ 2) by (change (256 ^ 2) with 65536; lia). apply X in H1. lia.
Qed.
Lemma wide_enc tag l : 256 <= len (concat (map enc l)) < 65536 -> exists hi lo, enc (Cons tag l) = [tag; 0x82; hi; lo] ++ concat (map enc l).
Proof.
  intros H. destruct (long_len _ H) as (hi & lo & EL). exists hi, lo. change (enc (Cons tag l)) with (tlv der_len tag (concat (map enc l))).
  unfold tlv. unfold len in EL. rewrite EL. reflexivity.
Qed.
Lemma short_cons t r c1 c2 tl : enc t ++ r = c1 :: c2 :: tl -> c2 < 128 -> flat t = t -> proper t ->
  (exists c, t = Prim c1 c) \/ (exists ks, t = Cons c1 ks /\ concat (map enc ks) ++ r = tl).
Proof.
  intros E H F PR. destruct t as [tg c|tg ks|tg p ks|b]; [left; injection E as ->; eauto| |discriminate F|destruct PR].
  - right. change (enc (Cons tg ks)) with (tlv der_len tg (concat (map enc ks))) in E. unfold tlv in E.
    cbn [app] in E. pose proof (f_equal (hd 0) E) as ET. apply (f_equal (@List.tl N)) in E. cbn [hd List.tl] in E, ET. subst tg. rewrite <- app_assoc in E. exists ks. split; [reflexivity|]. unfold der_len in E.
    destruct (N.ltb _ 128).
    + cbn [app] in E. injection E as _ E. exact E.
    + exfalso. apply (f_equal (hd 0)) in E. cbn [app hd] in E. lia.
Qed.

Section Header.
  Variable utf8 : bytes -> bool.
  Variable time : N -> bytes -> bool.
  Variable pem : bytes -> option bytes.

  Lemma flat_kids tag ks : flat (Cons tag ks) = Cons tag ks -> proper (Cons tag ks) -> Forall (fun k => flat k = k /\ proper k) ks.
  Proof.
    cbn [flat]. intros H HP. apply proper_cons in HP as [_ HP]. injection H as H. induction HP; constructor; injection H as H1 H2; auto.
  Qed.

  (** Three octets, the second below 128, and then a SEQUENCE that starts with an
      ENUMERATED: neither a certificate nor a request nor a CMS message. *)
  Lemma unread c1 c2 c3 b : let r := c1 :: c2 :: c3 :: 0x30 :: 0x0A :: b in
    all_bytes r -> c2 < 128 -> c3 <> 6 ->
    cms_content r = None /\ forall t, first_value r = Some t -> view_certificate utf8 time t = None /\ view_csr utf8 t = None.
  Proof.
    intros r HB H2 H3.
    assert (K : forall t q, parse (S (length r)) r = Some (t, q) ->
      (exists c, t = Prim c1 c) \/ (exists ks, t = Cons c1 ks /\ concat (map enc ks) ++ q = c3 :: 0x30 :: 0x0A :: b /\ Forall (fun k => flat k = k /\ proper k) ks)).
    { intros t q E. destruct (parse_sound _ _ _ _ HB E) as (E1 & PR & F). unfold r in E1. symmetry in E1.
      destruct (short_cons _ _ _ _ _ E1 H2 F PR) as [X|(ks & -> & X)]; [left; exact X|right]. exists ks. split; [reflexivity|]. split; [exact X|].
      apply (flat_kids c1); assumption. }
    split.
    - unfold cms_content, decode. destruct (parse (S (length r)) r) as [[t q]|] eqn:E; [|reflexivity].
      destruct q; [|reflexivity]. cbn [obind]. destruct (K _ _ eq_refl) as [[c ->]|(ks & -> & X & _)]; [reflexivity|].
      cbn [members]. destruct (N.eqb c1 0x30); [|reflexivity]. cbn [obind].
      destruct ks as [|k ks]; [reflexivity|]. destruct k as [tg c|? ?|? ? ?|?]; try reflexivity.
      cbn [map concat] in X. change (enc (Prim tg c)) with (tlv der_len tg c) in X. unfold tlv in X. cbn [app] in X. injection X as -> _.
      destruct c3 as [|[p|p|]]; try reflexivity. destruct p as [p|p|]; try reflexivity. destruct p; try reflexivity. congruence.
    - intros t HT. unfold first_value in HT. destruct (parse (S (length r)) r) as [[t' q]|] eqn:E; [|discriminate]. injection HT as ->.
      assert (Z : forall m o, signed_parts t = Some (m, o) -> exists y l, m = y :: l /\ members 0xA0 y = None /\ contents 0x02 y = None).
      { intros m o HM. destruct (K _ _ eq_refl) as [[c ->]|(ks & -> & X & F)]; [discriminate HM|].
        unfold signed_parts in HM. cbn [members] in HM. destruct (N.eqb c1 0x30); [|discriminate HM]. cbn [obind] in HM.
        destruct ks as [|x [|a [|s [|? ?]]]]; try discriminate HM.
        destruct (members 0x30 x) as [m'|] eqn:EM; [|discriminate HM]. cbn [obind] in HM.
        destruct (alg_of a); [|discriminate HM]. cbn [obind] in HM. destruct (contents 3 s); [|discriminate HM]. cbn [obind] in HM.
        injection HM as -> _. cbn [map concat] in X. rewrite <- app_assoc in X. inversion F as [|? ? [Fx Px] _]; subst.
        destruct (short_cons _ _ _ _ _ X ltac:(reflexivity) Fx Px) as [[c ->]|(ks & -> & Y)]; [discriminate EM|].
        cbn [members] in EM. destruct (N.eqb c3 0x30); [|discriminate EM]. injection EM as ->.
        apply flat_kids in Fx; [|exact Px]. destruct m as [|y l].
        { (* nothing inside: 0x30 octets were announced *) exfalso. cbn [map concat] in X.
          change (enc (Cons c3 [])) with [c3; 0] in X. discriminate X. }
        exists y, l. split; [reflexivity|]. inversion Fx as [|? ? [Fy Py] _]; subst. cbn [map concat] in Y. rewrite <- app_assoc in Y.
        destruct y as [g c|g k|g p k|bb]; [| |discriminate Fy|destruct Py].
        - change (enc (Prim g c)) with (tlv der_len g c) in Y. unfold tlv in Y. cbn [app] in Y. injection Y as -> _. split; reflexivity.
        - change (enc (Cons g k)) with (tlv der_len g (concat (map enc k))) in Y. unfold tlv in Y. cbn [app] in Y. injection Y as -> _. split; reflexivity. }
      split.
      + unfold view_certificate. destruct (signed_parts t) as [[m o]|] eqn:EM; [|reflexivity]. cbn [obind].
        destruct (Z _ _ eq_refl) as (y & l & -> & HA & HC). unfold version_of. rewrite HA. cbn [obind].
        do 5 (destruct l as [|? l]; [reflexivity|]). rewrite HC. reflexivity.
      + unfold view_csr. destruct (signed_parts t) as [[m o]|] eqn:EM; [|reflexivity]. cbn [obind].
        destruct (Z _ _ eq_refl) as (y & l & -> & HA & HC). do 3 (destruct l as [|? l]; [reflexivity|]). destruct l; [|reflexivity].
        rewrite HC. reflexivity.
  Qed.

  Lemma skips n b x : (128 <= length b)%nat -> firstn 4 b = str_REPD -> skipn 128 b = x :: n -> firstn 4 (x :: n) <> str_REPD -> x <> 45 ->
    cms_content (x :: n) = None -> (forall t, first_value (x :: n) = Some t -> view_certificate utf8 time t = None /\ view_csr utf8 t = None) ->
    view utf8 time pem b = None.
  Proof.
    intros HL HR E H1 H2 HC HV. rewrite (view_header utf8 time pem _ HL HR); rewrite E.
    - unfold view. replace (bytes_eqb _ str_BEGIN) with false
        by (symmetry; cbn [firstn str_BEGIN bytes_eqb]; destruct (N.eqb_spec x 45); [congruence|reflexivity]).
      cbn [obind]. unfold unwrap, strip_header.
      replace (bytes_eqb (firstn 4 (x :: n)) str_REPD) with false by (symmetry; apply bytes_eqb_neq; exact H1).
      rewrite andb_false_r, HC. destruct (first_value (x :: n)) as [t|]; [|reflexivity]. cbn [obind].
      destruct (HV t eq_refl) as [-> ->]. reflexivity.
    - cbn [firstn str_BEGIN bytes_eqb]; destruct (N.eqb_spec x 45); [congruence|reflexivity].
    - apply bytes_eqb_neq. exact H1.
  Qed.
End Header.

(** The last three octets of a P-256 certificate's serial number, and on. *)
Lemma into_serial s idn sub v k exts g : let tbs := tbs_certificate P256Sha256 (be_val s) idn sub v k exts in
  be_min (be_val s) = s -> Forall (fun b => 48 <= b < 128) s -> length s = 20%nat -> wide tbs -> wide (signed P256Sha256 tbs g) ->
  exists c1 c2 c3 b, skipn 32 (enc (signed P256Sha256 tbs g)) = c1 :: c2 :: c3 :: 0x30 :: 0x0A :: b /\
    48 <= c1 < 128 /\ 48 <= c2 < 128 /\ 48 <= c3 < 128.
Proof.
  intros tbs HM HF HL WT WS. unfold signed, SEQUENCE in *. destruct (wide_enc 0x30 _ WS) as (h1 & l1 & E1). rewrite E1. clear E1 WS.
  cbn [map concat]. unfold tbs, tbs_certificate, SEQUENCE in *. destruct (wide_enc 0x30 _ WT) as (h2 & l2 & E2). rewrite E2. clear E2 WT.
  cbn [map concat].
  assert (EI : enc (INTEGER (be_val s)) = 2 :: 20 :: s).
  { unfold INTEGER, der_uint. rewrite HM. destruct s as [|x s]; [discriminate|]. inversion HF as [|? ? Hx _]; subst.
    destruct (N.ltb_spec x 128); [|lia]. change (enc (Prim 2 (x :: s))) with (2 :: der_len (N.of_nat (length (x :: s))) ++ x :: s). rewrite HL. reflexivity. }
  rewrite EI. clear EI HM.
  do 20 (destruct s as [|? s]; [discriminate HL|]). destruct s; [|discriminate HL].
  change (enc (CTX 0 [INTEGER 2])) with [0xA0; 3; 2; 1; 2].
  change (enc (alg_id (sig_alg_oid P256Sha256))) with (0x30 :: 0x0A :: tl (tl (enc (alg_id (sig_alg_oid P256Sha256))))).
  cbn [app skipn]. do 17 apply Forall_inv_tail in HF.
  pose proof (Forall_inv HF) as H1. pose proof (Forall_inv (Forall_inv_tail HF)) as H2. pose proof (Forall_inv (Forall_inv_tail (Forall_inv_tail HF))) as H3.
  do 4 eexists. split; [reflexivity|]. auto.
Qed.

(** The middle of an identifier: a length of 48 bits, which no response has. *)
Lemma unread_oid b f : N.of_nat (length b) < 2 ^ 32 -> parse f (0x60 :: 0x86 :: 0x48 :: 1 :: 0x65 :: 3 :: 4 :: 2 :: b) = None.
Proof.
  intros H. destruct f as [|f]; [reflexivity|]. cbn [parse]. change (N.eqb (0x60 mod 32) 31) with false. cbv iota.
  unfold parse_len. change (N.ltb 0x86 128) with false. cbv iota. change (N.to_nat (0x86 - 128)) with 6%nat. cbn [firstn skipn length].
  destruct (_ || _); [reflexivity|]. change (be_val [0x48; 1; 0x65; 3; 4; 2]) with (ltac:(let v := eval vm_compute in (be_val [0x48; 1; 0x65; 3; 4; 2]) in exact v)).
  destruct (N.ltb_spec (N.of_nat (length b)) 79170826863618); [reflexivity|]. exfalso. lia.
Qed.

Lemma long_cons tag l k n : In k l -> 256 <= len (enc k) -> len (enc (Cons tag l)) < n -> n <= 65540 ->
  256 <= len (concat (map enc l)) < 65536.
Proof.
  intros HI HK HL HN. split.
  - apply N.le_trans with (1 := HK). clear - HI. induction l as [|y l IH]; [destruct HI|]. cbn [map concat]. rewrite len_app.
    destruct HI as [->|HI]; [lia|]. apply IH in HI. lia.
  - destruct (N.lt_ge_cases (len (concat (map enc l))) 65536) as [|G]; [assumption|exfalso].
    change (enc (Cons tag l)) with (tag :: der_len (len (concat (map enc l))) ++ concat (map enc l)) in HL. rewrite len_cons, len_app in HL.
    set (m := len (concat (map enc l))) in *. unfold der_len in HL. destruct (N.ltb_spec m 128); [lia|]. rewrite len_cons in HL.
    destruct (be_min_shortest m) as (A & B & _). pose proof (be_val_bound _ A) as X. rewrite B in X. unfold len in *.
    destruct (be_min m) as [|? [|? [|? ?]]]; cbn [length] in *; lia.
Qed.
(** The digest algorithm of a P-256 request's message. *)
Lemma into_digest sid l g1 v g2 : let csr := signed P256Sha256 (SEQUENCE l) g1 in
  let m := content_info (signed_data P256Sha256 (syntax_version v) csr (signer_info P256Sha256 (syntax_version v) sid g2)) in
  wide (SEQUENCE l) -> len (enc m) < 65540 ->
  exists b, skipn 32 (enc m) = 0x60 :: 0x86 :: 0x48 :: 1 :: 0x65 :: 3 :: 4 :: 2 :: b /\ (length b <= length (enc m))%nat.
Proof.
  intros csr m HW HL. assert (X : exists b, skipn 32 (enc m) = 0x60 :: 0x86 :: 0x48 :: 1 :: 0x65 :: 3 :: 4 :: 2 :: b).
  2: { destruct X as [b E]. exists b. split; [exact E|]. apply (f_equal (@length N)) in E. rewrite skipn_length in E. cbn [length] in E. lia. }
  unfold m, content_info in *. clear m. set (sd := signed_data _ _ _ _) in *.
  assert (L0 : 256 <= len (enc (SEQUENCE l))).
  { unfold wide, SEQUENCE in HW. change (enc (SEQUENCE l)) with (0x30 :: der_len (len (concat (map enc l))) ++ concat (map enc l)).
    rewrite len_cons, len_app. lia. }
  assert (L1 : 256 <= len (enc csr)).
  { apply N.le_trans with (1 := L0). unfold len, csr, signed.
    pose proof (kid_len 0x30 (SEQUENCE l) [SEQUENCE l; alg_id (sig_alg_oid P256Sha256); signature_bits g1] (or_introl eq_refl)). unfold SEQUENCE in *. lia. }
  set (ec := SEQUENCE [OID id_data; CTX 0 [OCTETS_OF csr]]).
  assert (L2 : 256 <= len (enc ec)).
  { apply N.le_trans with (1 := L1). unfold len. pose proof (kid_len 0x30 _ [OID id_data; CTX 0 [OCTETS_OF csr]] (or_intror (or_introl eq_refl))) as K1.
    pose proof (kid_len 0xA0 _ [OCTETS_OF csr] (or_introl eq_refl)) as K2.
    assert (K3 : (length (enc csr) <= length (enc (OCTETS_OF csr)))%nat).
    { change (enc (OCTETS_OF csr)) with (tlv der_len 4 (enc csr ++ [])). rewrite app_nil_r, tlv_length. lia. }
    change (CTX 0 [OCTETS_OF csr]) with (Cons 0xA0 [OCTETS_OF csr]) in *. change (Cons 0x30 ?x) with (SEQUENCE x) in K1. fold ec in K1. lia. }
  assert (L3 : 256 <= len (enc sd)).
  { apply N.le_trans with (1 := L2). unfold len, sd, signed_data. fold ec.
    match goal with |- _ <= N.of_nat (length (enc (SEQUENCE ?x))) => pose proof (kid_len 0x30 ec x ltac:(cbn [In]; auto)) as K end. unfold SEQUENCE in *. lia. }
  assert (K4 : len (enc sd) < len (enc (CTX 0 [sd]))).
  { unfold CTX. change (enc (Cons (160 + 0) [sd])) with (tlv der_len 160 (enc sd ++ [])). rewrite app_nil_r. unfold len. rewrite tlv_length. lia. }
  assert (K5 : len (enc (CTX 0 [sd])) <= len (enc (SEQUENCE [OID id_signedData; CTX 0 [sd]]))).
  { unfold len. pose proof (kid_len 0x30 (CTX 0 [sd]) [OID id_signedData; CTX 0 [sd]] (or_intror (or_introl eq_refl))) as K. unfold SEQUENCE. lia. }
  destruct (wide_enc 0x30 [OID id_signedData; CTX 0 [sd]]) as (h1 & l1 & E1).
  { apply (long_cons 0x30 _ (CTX 0 [sd]) 65540); [right; left; reflexivity|lia|exact HL|lia]. }
  destruct (wide_enc 0xA0 [sd]) as (h2 & l2 & E2).
  { apply (long_cons 0xA0 _ sd 65540); [left; reflexivity|lia| |lia]. change (Cons 0xA0 [sd]) with (CTX 0 [sd]). lia. }
  assert (E3 : exists h3 l3 r, enc sd = [0x30; 0x82; h3; l3; 2; 1; syntax_version v; 0x31; 0x0D; 0x30; 0x0B; 6; 9; 0x60; 0x86; 0x48; 1; 0x65; 3; 4; 2] ++ r).
  { assert (KS : len (enc sd) < 65540) by lia. clear K5 E1 E2 K4 L3 HL. unfold sd, signed_data in *. fold ec. fold ec in KS.
    match goal with |- context [SEQUENCE ?x] => destruct (wide_enc 0x30 x) as (h3 & l3 & E3);
      [apply (long_cons 0x30 _ ec 65540); [cbn [In]; auto|exact L2|change (Cons 0x30 x) with (SEQUENCE x); lia|lia]|] end.
    exists h3, l3. unfold SEQUENCE. rewrite E3. cbn [map concat].
    assert (EV : enc (INTEGER (syntax_version v)) = [2; 1; syntax_version v]) by (destruct v; reflexivity). rewrite EV.
    change (enc (SET [alg_id (digest_oid P256Sha256)])) with ([0x31; 0x0D; 0x30; 0x0B; 6; 9; 0x60; 0x86; 0x48; 1; 0x65; 3; 4; 2; 1]).
    cbn [app]. eexists. reflexivity. }
  destruct E3 as (h3 & l3 & r & E3). unfold SEQUENCE. rewrite E1. cbn [map concat]. rewrite app_nil_r.
  change (enc (CTX 0 [sd])) with (enc (Cons 0xA0 [sd])). rewrite E2. cbn [map concat]. rewrite app_nil_r, E3.
  change (enc (OID id_signedData)) with [6; 9; 0x2A; 0x86; 0x48; 0x86; 0xF7; 0x0D; 1; 7; 2]. cbn [app skipn]. eexists. reflexivity.
Qed.

Section Skipped.
  Variable cf : config.
  Hypothesis Hcf : config_ok cf.
  Context {C P : Type}.
  Variable co : crypto_ops C.
  Variable po : platform_ops P.

  Lemma certificate_inside k a off w r w' i cts :
    create_cert cf C P co po k a off w = (Ok r, w') -> kind_csr k = false -> prof cf = P256Sha256 ->
    wf cf (w_st w) -> all_bytes (ca_ueid a) -> keys_fit cf co -> issuer_der po ->
    first_slot (names (w_st w) (ca_handle a) (ca_locality a)) i -> lineage (w_st w) i cts -> even_svns cts ->
    let b := firstn (N.to_nat (cr_size r)) (skipn off (w_out w')) in
    all_bytes b /\ exists c1 c2 c3 q, skipn 32 b = c1 :: c2 :: c3 :: 0x30 :: 0x0A :: q /\ 48 <= c1 < 128 /\ 48 <= c2 < 128 /\ 48 <= c3 < 128.
  Proof.
    intros H HC EP W HU HK HI HF HL HE b.
    assert (HKr : key_of (prof cf) (cr_pubkey r)).
    { pose proof (made_inv cf co po _ _ _ _ _ _ H) as (x & wd & n & wr & HD & _ & _ & _ & _ & _ & Epk & _).
      rewrite Epk. eapply drafted_key; eauto. }
    destruct (certificate_made cf Hcf co po _ _ _ _ _ _ H HC W HKr) as (x & wd & HD & Ek & T).
    destruct (drafted_issuer cf co po _ _ _ _ _ HI HC HD) as (idn & HP & HQ).
    pose proof (drafted_idx cf co po _ _ _ _ _ _ HD HF) as Ei.
    rewrite Ei in T. destruct (T cts idn HL HE HQ) as (g & Hg & En & HB & HO & Wt & Ws). clear T.
    cbv zeta in *. set (tbs := output_tbs cf k a (w_st w) cts idn x) in *.
    pose proof (drafted_bytes _ _ _ _ _ _ _ _ _ _ HD) as B. pose proof (chain_words cf _ _ _ W HL) as HW.
    assert (PT : proper tbs) by (apply output_tbs_proper; assumption).
    assert (Eb : b = enc (signed (prof cf) tbs g)) by (unfold b; rewrite HO; apply cut; assumption).
    assert (LB : len (enc (signed (prof cf) tbs g)) < 2 ^ 32).
    { unfold signed, SEQUENCE in *. destruct (wide_enc 0x30 _ Ws) as (h1 & l1 & E1). rewrite E1, len_app. cbn [wide] in Ws.
      change (len [48; 130; h1; l1]) with 4. lia. }
    split; [rewrite Eb; apply proper_bytes; [apply proper_signed, PT|exact LB]|].
    destruct (drafted_name cf co po _ _ _ _ _ HD) as (d & _ & _ & Hs). destruct (serial_min d) as (M1 & _ & M3 & M4).
    rewrite Eb. clear - EP Wt Ws Hs M1 M3 M4. unfold tbs, output_tbs in *. rewrite Hs, EP in *. apply into_serial; assumption.
  Qed.
  Lemma request_inside k a off w r w' i cts :
    create_cert cf C P co po k a off w = (Ok r, w') -> kind_csr k = true -> prof cf = P256Sha256 ->
    wf cf (w_st w) -> all_bytes (ca_ueid a) -> keys_fit cf co -> signer_der po ->
    first_slot (names (w_st w) (ca_handle a) (ca_locality a)) i -> lineage (w_st w) i cts -> even_svns cts ->
    let b := firstn (N.to_nat (cr_size r)) (skipn off (w_out w')) in
    exists q, skipn 32 b = 0x60 :: 0x86 :: 0x48 :: 1 :: 0x65 :: 3 :: 4 :: 2 :: q /\ N.of_nat (length q) < 2 ^ 32.
  Proof.
    intros H HC EP W HU HK HI HF HL HE b.
    assert (HKr : key_of (prof cf) (cr_pubkey r)).
    { pose proof (made_inv cf co po _ _ _ _ _ _ H) as (x & wd & n & wr & HD & _ & _ & _ & _ & _ & Epk & _).
      rewrite Epk. eapply drafted_key; eauto. }
    destruct (request_made cf Hcf co po _ _ _ _ _ _ H HC W HKr) as (x & wd & HD & Ek & T).
    destruct (drafted_sid cf co po _ _ _ _ _ HI HD) as (sidt & HP & HQ & HV & HR).
    pose proof (drafted_idx cf co po _ _ _ _ _ _ HD HF) as Ei.
    rewrite Ei in T. destruct (T cts sidt HL HE HQ) as (g1 & c1 & g2 & Hg1 & Hg2 & En & HB & HO & Wt & Ws). clear T.
    cbv zeta in *. set (info := output_info cf k a (w_st w) cts x) in *. 
    assert (Eb : b = enc (content_info (signed_data (prof cf) (syntax_version (dr_sid x)) (signed (prof cf) info g1)
                            (signer_info (prof cf) (syntax_version (dr_sid x)) sidt g2)))) by (unfold b; rewrite HO; apply cut; assumption).
    rewrite Eb. rewrite En in Ws. rewrite EP in *. assert (EI : exists l, info = SEQUENCE l) by (eexists; reflexivity). clearbody info. destruct EI as [l ->].
    destruct (into_digest sidt l g1 (dr_sid x) g2 Wt Ws) as (q & E1 & E2). exists q. split; [exact E1|]. unfold len in Ws.
    apply N.le_lt_trans with (N.of_nat (length (enc (content_info (signed_data P256Sha256 (syntax_version (dr_sid x)) (signed P256Sha256 (SEQUENCE l) g1)
                            (signer_info P256Sha256 (syntax_version (dr_sid x)) sidt g2)))))); [lia|].
    apply N.lt_trans with (1 := Ws). reflexivity.
  Qed.
End Skipped.
