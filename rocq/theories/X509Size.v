(** X509Size.v -- how large the outputs of [create_cert] can get. *)
From Verif Require Import Base Errors Types Env StateOps Wire Instance Commands X509 X509Cert Lib Der DerProofs X509Run X509Spec
  X509Bytes X509Enc X509Tbs X509Cms Spec Exec Forest Codec Walk Measure X509Out X509Proper X509Gen X509Made.
Open Scope N_scope.

(** ** Lengths of parts *)

Lemma width_mono n m : n <= m -> get_size_width n <= get_size_width m.
Proof.
  unfold get_size_width. intros H.
  destruct (N.ltb_spec n 128), (N.ltb_spec m 128); try lia;
  destruct (N.ltb_spec n 256), (N.ltb_spec m 256); try lia;
  destruct (N.ltb_spec n 65536), (N.ltb_spec m 65536); try lia;
  destruct (N.ltb_spec n 16777216), (N.ltb_spec m 16777216); lia.
Qed.
Lemma gss_mono n m : n <= m -> gss n <= gss m.
Proof. intros H. rewrite !gss_unfold. pose proof (width_mono n m H). lia. Qed.
Lemma width_le n : n < 65536 -> get_size_width n <= 3.
Proof. intros H. change 3 with (get_size_width 65535). apply width_mono. lia. Qed.
Lemma gss_room n : n < 65536 -> gss n <= n + 4.
Proof. intros H. rewrite gss_unfold. pose proof (width_le n H). lia. Qed.

Lemma hash_oid_len cf : len (hash_oid cf) = 9.
Proof. unfold hash_oid. destruct (prof cf); reflexivity. Qed.

Lemma svn_size v : v < 2 ^ 32 -> get_integer_size v true <= 7.
Proof.
  intros H. unfold get_integer_size, get_integer_bytes_size. change 7 with (gss 5). apply gss_mono.
  assert (E0 : be_bytes 8 v = [0; 0; 0; 0] ++ be_bytes 4 v).
  { assert (Z : v / 256 / 256 / 256 / 256 = 0).
    { rewrite !N.div_div by lia. apply N.div_small. exact H. }
    unfold be_bytes. cbn [le_bytes rev app]. rewrite Z. reflexivity. }
  rewrite E0. assert (L : length (be_bytes 4 v) = 4%nat) by (unfold be_bytes; rewrite rev_length; apply length_le_bytes).
  destruct (be_bytes 4 v) as [|a l]; [discriminate|]. change (len ([0; 0; 0; 0] ++ a :: l)) with (len (0 :: 0 :: 0 :: 0 :: a :: l)).
  assert (LL : len (a :: l) = 4) by (unfold len; rewrite L; reflexivity). rewrite !len_cons in *.
  change (integer_len_loop ([0; 0; 0; 0] ++ a :: l) (1 + (1 + (1 + (1 + (1 + len l))))))
    with (integer_len_loop (a :: l) (1 + (1 + (1 + (1 + (1 + len l)))) - 1 - 1 - 1 - 1)).
  destruct (int_size_bound (a :: l) (1 + (1 + (1 + (1 + (1 + len l)))) - 1 - 1 - 1 - 1)) as [A _]; [rewrite len_cons; lia|]. lia.
Qed.

(** A TcbInfo of a measurement of [d] octets, with or without a cumulative one. *)
Definition info_max (d : N) (r : bool) : N :=
  if N.leb d 32 then (if r then 126 else 70) else (if r then 159 else 86).

Lemma info_size cf t r d : len (tci_current t) = d -> len (tci_cumulative t) = d -> d <= 48 -> tci_svn t < 2 ^ 32 ->
  get_tcb_info_size cf t r true <= info_max d r.
Proof.
  intros H1 H2 H3 H4. unfold get_tcb_info_size, get_fwid_size. rewrite !hash_oid_len, H1, H2.
  pose proof (svn_size _ H4) as HS. change (get_integer_size 0 true) with 3.
  assert (HF : forall e, d <= e -> gss (gss 9 + gss d) <= gss (gss 9 + gss e)).
  { intros e He. pose proof (gss_mono _ _ He). apply gss_mono. lia. }
  assert (G : forall e b m, d <= e -> gss (gss (gss 9 + gss e)) + 2 * gss 4 + (if r then gss (gss (3 + gss (gss (gss 9 + gss e)))) else 0) + 7 <= b ->
              gss b <= m ->
              gss (gss (gss (gss 9 + gss d)) + 2 * gss 4
                   + (if r then gss (gss (3 + gss (gss (gss 9 + gss d)))) else 0) + get_integer_size (tci_svn t) true) <= m).
  { intros e b m He Hb Hm. etransitivity; [|exact Hm]. apply gss_mono. pose proof (HF e He) as F.
    pose proof (gss_mono _ _ F) as F2.
    assert (F3 : gss (gss (3 + gss (gss (gss 9 + gss d)))) <= gss (gss (3 + gss (gss (gss 9 + gss e))))) by (do 2 apply gss_mono; lia).
    destruct r; lia. }
  unfold info_max. destruct (N.leb_spec d 32), r.
  - apply (G 32 124); [assumption|vm_compute; discriminate|vm_compute; discriminate].
  - apply (G 32 68); [assumption|vm_compute; discriminate|vm_compute; discriminate].
  - apply (G 48 156); [assumption|vm_compute; discriminate|vm_compute; discriminate].
  - apply (G 48 84); [assumption|vm_compute; discriminate|vm_compute; discriminate].
Qed.

Lemma sum_le (f : context -> bytes) k l : (forall c, In c l -> len (f c) <= k) ->
  len (concat (map f l)) <= k * N.of_nat (length l).
Proof.
  induction l as [|c l IH]; intros H; [cbn; lia|]. cbn [map concat length]. rewrite len_app.
  specialize (IH (fun c Hc => H c (or_intror Hc))). pose proof (H c (or_introl eq_refl)). lia.
Qed.

(** ** The extensions *)

(** What a subject alternative name costs. *)
Definition san_room (o : option other_name) : N :=
  match o with None => 0 | Some o => len (on_oid o) + len (on_value o) + 19 end.

Lemma gss_short n : n < 128 -> gss n = n + 2.
Proof. intros H. rewrite gss_unfold, width_small by exact H. lia. Qed.
Ltac shorten := repeat match goal with |- context [get_structure_size ?n true] => rewrite (gss_short n) by lia end.

Lemma san_size md : san_room (md_san md) <= 100 -> get_san_extension_size md true <= san_room (md_san md).
Proof.
  unfold get_san_extension_size, san_room, get_other_name_size, get_key_identifier_size, get_extension_size.
  destruct (md_san md) as [o|]; [|lia]. intros H. set (a := len (on_oid o)) in *. set (b := len (on_value o)) in *.
  change (gss (len oid_san)) with 5. shorten. lia.
Qed.

Lemma label_room n m : n <= m -> n <= 48 -> m <= 48 -> forall c, get_extension_size oid_ueid c (gss (gss n)) true <= m + 19.
Proof.
  intros H1 H2 H3 c. unfold get_extension_size. change (gss (len oid_ueid)) with 8. change (gss bool_size) with 3.
  destruct c; shorten; lia.
Qed.

(** The extensions besides the measurements. *)
Lemma others_room crit md x509 u : len (md_label md) <= u -> u <= 48 -> len (md_ski md) = 20 -> len (md_aki md) = 20 ->
  san_room (md_san md) <= 100 ->
  len (others crit md x509) <= (if x509 then 33 else 0) + (if md_is_ca md then 34 else 0) + u + 72 + san_room (md_san md).
Proof.
  intros HU HU2 HS HA HN. rewrite len_others. pose proof (san_size md HN) as S1.
  assert (S2 : get_ueid_size crit md true <= u + 19) by (apply label_room; lia).
  assert (S3 : get_basic_constraints_size md true <= (if md_is_ca md then 17 else 14)) by
    (unfold get_basic_constraints_size; destruct (md_is_ca md); vm_compute; discriminate).
  assert (S4 : get_key_usage_size true <= 16) by (vm_compute; discriminate).
  assert (S5 : get_eku_size md true <= 23) by
    (unfold get_eku_size, policy_oid; destruct (md_is_ca md); vm_compute; discriminate).
  assert (S6 : get_ski_extension_size md true x509 <= if md_is_ca md then (if x509 then 31 else 0) else 0).
  { unfold get_ski_extension_size. rewrite HS. destruct (md_is_ca md), x509; vm_compute; discriminate. }
  assert (S7 : get_aki_extension_size md true x509 <= if x509 then 33 else 0).
  { unfold get_aki_extension_size, get_key_identifier_size. rewrite HA. destruct x509; vm_compute; discriminate. }
  destruct (md_is_ca md), x509; lia.
Qed.

Section Exts.
  Variables (cf : config) (crit : bool) (md : measurement_data) (x509 : bool) (M O : N).
  Hypothesis HM : M <= 20000.
  Hypothesis HO : O <= 400.
  Hypothesis Hothers : len (others crit md x509) <= O.

  Lemma head_room D : D <= M -> len (ext_head oid_multi_tcb crit (gss D)) <= 19 /\
    get_extension_size oid_multi_tcb crit (gss D) true <= D + 23.
  Proof.
    intros HD. pose proof (len_ext_head oid_multi_tcb crit (gss D)) as L.
    unfold get_extension_size in *. change (gss (len oid_multi_tcb)) with 8 in *. change (gss bool_size) with 3 in *.
    pose proof (gss_room D ltac:(lia)) as G1. generalize dependent (gss D). intros a L G1.
    pose proof (gss_room a ltac:(lia)) as G2. pose proof (gss_unfold a) as G3. pose proof (width_le a ltac:(lia)).
    generalize dependent (gss a). intros b L G2 G3.
    assert (HX : 8 + (if crit then 3 else 0) + b < 65536) by (destruct crit; lia).
    pose proof (gss_room _ HX). pose proof (gss_unfold (8 + (if crit then 3 else 0) + b)). pose proof (width_le _ HX).
    destruct crit; lia.
  Qed.

  Lemma multi_room D I : D <= M -> len I <= M -> len (multi_raw crit D I) <= M + 23.
  Proof.
    intros HD HI. unfold multi_raw. rewrite len_app, len_cons, len_app, len_code_len.
    destruct (head_room D HD). pose proof (width_le D ltac:(lia)). lia.
  Qed.
  Lemma exts_len_room D : D <= M -> exts_len crit md x509 D <= M + O + 23.
  Proof. intros HD. unfold exts_len. destruct (head_room D HD). lia. Qed.
  Lemma exts_room D I : D <= M -> len I <= M -> len (exts_raw crit md x509 D I) <= M + O + 27.
  Proof.
    intros HD HI. unfold exts_raw. rewrite len_cons, !len_app, len_code_len.
    pose proof (exts_len_room D HD). pose proof (width_le (exts_len crit md x509 D) ltac:(lia)).
    pose proof (multi_room D I HD HI). lia.
  Qed.
End Exts.

Lemma field_room crit md M O D I : M <= 20000 -> O <= 400 -> len (others crit md true) <= O -> D <= M -> len I <= M ->
  len (exts_field crit md true D I) <= M + O + 31.
Proof.
  intros HM HO HL HD HI. pose proof (exts_room crit md true M O HM HO HL D I HD HI) as R.
  pose proof (exts_len_room crit md true M O HM HO HL D HD) as L1. unfold exts_field. rewrite len_app.
  pose proof (gss_room (exts_len crit md true D) ltac:(lia)). pose proof (width_le (gss (exts_len crit md true D)) ltac:(lia)).
  rewrite len_cons, len_code_len. lia.
Qed.

Lemma attrs_room crit md M O D I : M <= 20000 -> O <= 400 -> len (others crit md false) <= O -> D <= M -> len I <= M ->
  len (attrs_raw crit md D I) <= M + O + 50.
Proof.
  intros HM HO HL HD HI. pose proof (exts_room crit md false M O HM HO HL D I HD HI) as R.
  pose proof (exts_len_room crit md false M O HM HO HL D HD) as L1.
  unfold attrs_raw. rewrite !len_cons, !len_app, len_cons, !len_app, len_tlv, len_cons, !len_app, !len_code_len.
  change (gss (len oid_ext_request)) with 11.
  assert (L2 : gss (exts_len crit md false D) <= M + O + 27) by (pose proof (gss_room (exts_len crit md false D) ltac:(lia)); lia).
  assert (L3 : gss (gss (exts_len crit md false D)) <= M + O + 31) by (pose proof (gss_room (gss (exts_len crit md false D)) ltac:(lia)); lia).
  assert (L4 : attr_len crit md D <= M + O + 42) by (unfold attr_len; change (gss (len oid_ext_request)) with 11; lia).
  assert (L5 : gss (attr_len crit md D) <= M + O + 46) by (pose proof (gss_room (attr_len crit md D) ltac:(lia)); lia).
  pose proof (width_le (gss (exts_len crit md false D)) ltac:(lia)).
  pose proof (width_le (attr_len crit md D) ltac:(lia)).
  pose proof (width_le (gss (attr_len crit md D)) ltac:(lia)). lia.
Qed.

(** ** Names, keys and signatures *)

Lemma len_E_seq l : len (E (SEQUENCE l)) = gss (len (concat (map E l))).
Proof. unfold SEQUENCE. cbn [enc_with]. apply len_tlv. Qed.
Lemma len_E_set l : len (E (SET l)) = gss (len (concat (map E l))).
Proof. unfold SET. cbn [enc_with]. apply len_tlv. Qed.
Lemma len_E_prim t c : len (E (Prim t c)) = gss (len c).
Proof. cbn [enc_with]. apply len_tlv. Qed.
Lemma len_E_list a l : len (concat (map E (a :: l))) = len (E a) + len (concat (map E l)).
Proof. cbn [map concat]. apply len_app. Qed.
Lemma len_E_nil : len (concat (map E [])) = 0.
Proof. reflexivity. Qed.
Ltac elens := repeat first [rewrite len_E_seq | rewrite len_E_set | rewrite len_E_list | rewrite len_E_nil | rewrite len_E_prim | rewrite len_tlv].

(** Keys and signatures of each profile. *)
Definition spki_max (p : profile) : N := match p with P256Sha256 => 91 | P384Sha384 => 120 | Mldsa87 => 2614 end.
Lemma spki_room p k : key_of p k -> len (E (subject_public_key_info k)) <= spki_max p.
Proof.
  destruct p, k as [x y|x y|b]; cbn [key_of]; try contradiction; intros _;
    unfold subject_public_key_info, BITS, OID, alg_id; elens; rewrite ?len_cons, ?len_app, ?length_to_vec; vm_compute; discriminate.
Qed.

Definition sig_of (p : profile) (g : signature) : Prop :=
  match p, g with
  | P256Sha256, SigEcdsa256 _ _ | P384Sha384, SigEcdsa384 _ _ | Mldsa87, SigMldsa _ => True
  | _, _ => False
  end.
Definition bits_max (p : profile) : N := match p with P256Sha256 => 75 | P384Sha384 => 107 | Mldsa87 => 4632 end.
Definition octets_max (p : profile) : N := match p with P256Sha256 => 74 | P384Sha384 => 106 | Mldsa87 => 4631 end.

Lemma sig_value_room n r s : (0 < n)%nat -> (n <= 48)%nat ->
  len (E (ecdsa_sig_value (be_val (to_buf n r)) (be_val (to_buf n s)))) <= gss (2 * gss (N.of_nat n + 1)).
Proof.
  intros Hn Hn2. unfold ecdsa_sig_value. rewrite <- !sig_int_spec by exact Hn. unfold sig_int. elens.
  rewrite <- !get_int_tagged. pose proof (int_size_le n r). pose proof (int_size_le n s).
  assert (Q : forall b, get_integer_bytes_size (to_buf n b) true <= gss (N.of_nat n + 1)).
  { intros b. pose proof (int_size_le n b). unfold get_integer_bytes_size in *. rewrite gss_false in *. apply gss_mono. assumption. }
  apply gss_mono. pose proof (Q r). pose proof (Q s). lia.
Qed.
Lemma bits_room p g : sig_of p g -> len (E (signature_bits g)) <= bits_max p.
Proof.
  destruct p, g as [r s|r s|b]; cbn [sig_of]; try contradiction; intros _; unfold signature_bits.
  - unfold BITS_OF. cbn [enc_with map concat app]. rewrite app_nil_r, len_tlv, len_cons.
    pose proof (sig_value_room 32 r s ltac:(lia) ltac:(lia)) as H. etransitivity; [apply gss_mono, N.add_le_mono_l, H|vm_compute; discriminate].
  - unfold BITS_OF. cbn [enc_with map concat app]. rewrite app_nil_r, len_tlv, len_cons.
    pose proof (sig_value_room 48 r s ltac:(lia) ltac:(lia)) as H. etransitivity; [apply gss_mono, N.add_le_mono_l, H|vm_compute; discriminate].
  - unfold BITS. elens. rewrite len_cons, length_to_vec. vm_compute. discriminate.
Qed.
Lemma octets_room p g : sig_of p g -> len (E (signature_octets g)) <= octets_max p.
Proof.
  destruct p, g as [r s|r s|b]; cbn [sig_of]; try contradiction; intros _; unfold signature_octets.
  - unfold OCTETS_OF. cbn [enc_with map concat app]. rewrite app_nil_r, len_tlv.
    pose proof (sig_value_room 32 r s ltac:(lia) ltac:(lia)) as H. etransitivity; [apply gss_mono, H|vm_compute; discriminate].
  - unfold OCTETS_OF. cbn [enc_with map concat app]. rewrite app_nil_r, len_tlv.
    pose proof (sig_value_room 48 r s ltac:(lia) ltac:(lia)) as H. etransitivity; [apply gss_mono, H|vm_compute; discriminate].
  - unfold OCTETS. elens. rewrite length_to_vec. vm_compute. discriminate.
Qed.

(** ** Whole outputs *)

Definition alg_max (p : profile) : N := match p with Mldsa87 => 13 | _ => 12 end.
Lemma alg_room p : len (E (alg_id (sig_alg_oid p))) = alg_max p.
Proof. destruct p; reflexivity. Qed.
Lemma digest_room p : len (E (alg_id (digest_oid p))) = 13.
Proof. destruct p; reflexivity. Qed.

Lemma name_room exported s : length s = 64%nat ->
  len (E (name_der {| nm_cn := PrintableString (if exported : bool then str_dpe_exported else str_dpe_leaf);
                      nm_serial := PrintableString s |})) = if exported then 104 else 96.
Proof.
  intros H. unfold name_der, string_der, rdn, OID, PRINTABLE. cbn [nm_cn nm_serial]. elens.
  assert (L : len s = 64) by (unfold len; rewrite H; reflexivity). rewrite L. destruct exported; reflexivity.
Qed.

Lemma serial_room l : len l <= 20 -> len (tlv code_len 2 (code_int l)) <= 23.
Proof.
  intros H. rewrite len_tlv, <- get_int_tagged. unfold get_integer_bytes_size. change 23 with (gss 21). apply gss_mono.
  destruct (int_size_bound l (len l) ltac:(lia)) as [A _]. lia.
Qed.

Section Whole.
  Variable cf : config.
  Hypothesis Hcf : config_ok cf.
  Variable s : state.
  Hypothesis W : wf cf s.
  Variables (i : nat) (cts : list context).
  Hypothesis Hlin : lineage s i cts.
  Variable md : measurement_data.
  Hypothesis Hctxs : md_contexts md = st_contexts s.
  Hypothesis Hstart : md_start md = i.
  Let p := prof cf.
  Let d := N.of_nat (tci_size cf).
  Let n := N.of_nat (length cts).
  Let r := md_recursive md.

  Lemma d_small : d <= 48.
  Proof. unfold d, tci_size. destruct (feat_p384 cf || feat_mldsa cf); cbn; lia. Qed.
  Lemma info_small : info_max d r <= 159.
  Proof. unfold info_max. destruct (N.leb d 32), r; lia. Qed.

  Lemma chain_info_size c : In c cts -> get_tcb_info_size cf (c_tci c) (md_recursive md) true <= info_max d r.
  Proof.
    intros Hc. pose proof (lineage_slots cf s i cts W Hlin c Hc) as S.
    apply info_size; [| |apply d_small|apply (so_svn _ _ _ S)].
    - unfold len, d. f_equal. apply (so_current _ _ _ S).
    - unfold len, d. f_equal. apply (so_cumulative _ _ _ S).
  Qed.

  Lemma parts_room : exists D, declared cf md = Ok D /\ collect cf md = Ok (rev cts) /\
    D <= info_max d r * n /\ len (infos cf md (rev cts)) <= info_max d r * n.
  Proof.
    destruct (declared_root cf Hcf s W i cts Hlin md Hstart Hctxs) as (l & root & El & ED).
    eexists. split; [exact ED|]. split; [apply (collect_chain cf Hcf s W i cts Hlin md Hstart Hctxs)|]. split.
    - rewrite N.mul_comm. apply N.mul_le_mono_r. apply chain_info_size. rewrite El. apply in_or_app. right. left. reflexivity.
    - unfold infos, n. rewrite <- (rev_length cts). apply sum_le. intros c Hc. rewrite len_tcb. apply chain_info_size, in_rev, Hc.
  Qed.

  Context {C : Type}.
  Variable cb : sign_data -> bool -> C -> (signature + crypto_error) * C.
  Hypothesis Hsig : forall x b c g c', cb x b c = (inl g, c') -> sig_of p g.
  Variables (crit : bool) (subject : name) (pk : pubkey) (u o : N).
  Hypothesis Hkey : key_of p pk.
  Hypothesis Hchain : n <= 64.
  Hypothesis Hlabel : len (md_label md) <= u.
  Hypothesis Hu : u <= 48.
  Hypothesis Hski : len (md_ski md) = 20.
  Hypothesis Haki : len (md_aki md) = 20.
  Hypothesis Hsan : san_room (md_san md) <= o.
  Hypothesis Ho : o <= 100.
  Hypothesis Hname : len (E (name_der subject)) = if md_is_ca md then 104 else 96.

  Let M := info_max d r * n.
  Lemma M_small : M <= 10176.
  Proof. unfold M. pose proof info_small as I0. clear - Hchain I0. nia. Qed.

  Lemma bind_ok {A B} (m : result A) (f : A -> result B) b : rbind m f = Ok b -> exists a, m = Ok a /\ f a = Ok b.
  Proof. destruct m as [a| |]; cbn [rbind]; try discriminate. eauto. Qed.
  Lemma wrap_len tag m bs : rwrap tag m = Ok bs -> exists body, m = Ok body /\ bs = tlv code_len tag body /\ len bs = len body + 4.
  Proof.
    unfold rwrap. destruct m as [b| |]; cbn [rbind]; try discriminate.
    destruct (N.eqb_spec (get_size_width (len b)) 3) as [E3|]; [|discriminate]. intros H. apply ok_inj in H. subst bs.
    exists b. split; [reflexivity|]. split; [reflexivity|]. rewrite len_tlv, gss_unfold, E3. lia.
  Qed.

  Lemma signed_len f derived c bs c' : fsigned cf C cb (flift f) derived c = (Ok bs, c') ->
    exists body g, f = Ok body /\ sig_of p g /\ len bs <= len body + alg_max p + bits_max p + 4.
  Proof.
    unfold fsigned, fwrap, fbind, flift. destruct f as [b| |]; cbn [fst snd]; try discriminate.
    unfold fsign. destruct (cb (SDBuffer b) derived c) as [[g|e] c1] eqn:EC; [|discriminate].
    intros H. exists b, g. split; [reflexivity|]. split; [eapply Hsig; exact EC|].
    pose proof (Hsig _ _ _ _ _ EC) as HG. pose proof (bits_room p g HG).
    destruct (N.eqb_spec (get_size_width (len (b ++ bits_of cf g))) 3) as [E3|]; [|discriminate].
    assert (bs = tlv code_len 0x30 (b ++ bits_of cf g)) as -> by congruence.
    rewrite len_tlv, gss_unfold, E3, len_app. unfold bits_of. rewrite len_app. fold p. rewrite alg_room. lia.
  Qed.

  Lemma cert_len serial issuer v c bs c' : len serial <= 20 ->
    len (cv_not_before v) <= 24 -> len (cv_not_after v) <= 24 ->
    fsigned cf C cb (flift (rwrap 0x30 (rtbs cf crit md serial issuer subject pk v))) false c = (Ok bs, c') ->
    len bs <= M + (if md_is_ca md then 42 else 0) + u + o + len issuer + 322 + 2 * alg_max p + spki_max p + bits_max p.
  Proof.
    intros Hser Hv1 Hv2 H. apply signed_len in H as (body & g & Hb & _ & HL).
    apply wrap_len in Hb as (tbs & Ht & _ & HL2). unfold rtbs, rspki, rexts in Ht. rewrite (spki_match cf pk Hkey) in Ht.
    destruct parts_room as (D & ED & EC & HD & HI). rewrite ED, EC in Ht. cbn [rbind] in Ht. apply ok_inj in Ht. subst tbs.
    pose proof (others_room crit md true u Hlabel Hu Hski Haki ltac:(lia)) as HO. cbv iota in HO.
    pose proof (field_room crit md M (33 + (if md_is_ca md then 34 else 0) + u + 72 + o) D (infos cf md (rev cts))) as HF.
    pose proof M_small. specialize (HF ltac:(lia) ltac:(destruct (md_is_ca md); lia) ltac:(lia) HD HI).
    rewrite !len_app in HL2. pose proof (spki_room p pk Hkey). pose proof (serial_room serial Hser). fold p in HL2. rewrite alg_room, Hname in HL2.
    change (len (E (CTX 0 [INTEGER 2]))) with 5 in HL2.
    assert (HV : len (E (SEQUENCE [GENERALIZED_TIME (cv_not_before v); GENERALIZED_TIME (cv_not_after v)])) <= 54).
    { unfold GENERALIZED_TIME. elens. shorten. lia. }
    destruct (md_is_ca md); lia.
  Qed.

  Lemma request_len c bs c' : md_is_ca md = false ->
    fcsr cf C cb crit md subject pk c = (Ok bs, c') ->
    len bs <= M + u + o + 229 + alg_max p + spki_max p + bits_max p.
  Proof.
    intros HCA H. unfold fcsr in H. apply signed_len in H as (body & g & Hb & _ & HL).
    apply wrap_len in Hb as (info & Ht & _ & HL2). unfold rinfo, rspki, rattrs in Ht. rewrite (spki_match cf pk Hkey) in Ht.
    destruct parts_room as (D & ED & EC & HD & HI). rewrite ED, EC in Ht. cbn [rbind] in Ht. apply ok_inj in Ht. subst info.
    pose proof (others_room crit md false u Hlabel Hu Hski Haki ltac:(lia)) as HO. pose proof Hname as HN. rewrite HCA in HO, HN. cbv iota in HO, HN.
    pose proof (attrs_room crit md M (u + 72 + o) D (infos cf md (rev cts))) as HF.
    pose proof M_small. specialize (HF ltac:(lia) ltac:(lia) ltac:(lia) HD HI).
    rewrite !len_app in HL2. pose proof (spki_room p pk Hkey). rewrite HN in HL2.
    change (len (E (INTEGER 0))) with 3 in HL2. lia.
  Qed.

  Lemma sid_room sid a : match sid with IssuerAndSerialNumber i0 n0 => len i0 <= a /\ len n0 <= 20
                         | SubjectKeyIdentifier k0 => len k0 <= 20 end -> a <= 128 ->
    len (E (sid_der sid)) <= a + 26.
  Proof.
    intros HS Ha. destruct sid as [i0 n0|k0]; cbn [sid_der].
    - destruct HS as [HS1 HS2]. pose proof (serial_room n0 HS2) as HS3. rewrite len_tlv in HS3. elens. rewrite E_opaque.
      assert (X : len i0 + (gss (len (code_int n0)) + 0) <= a + 23) by lia.
      pose proof (gss_mono _ _ X). rewrite (gss_unfold (a + 23)) in *.
      assert (get_size_width (a + 23) <= 2) by (change 2 with (get_size_width 255); apply width_mono; lia). lia.
    - unfold OCTETS. cbn [enc_with map concat app]. rewrite app_nil_r. elens. shorten. lia.
  Qed.

  Lemma message_len sid a c bs c' : md_is_ca md = false ->
    match sid with IssuerAndSerialNumber i0 n0 => len i0 <= a /\ len n0 <= 20 | SubjectKeyIdentifier k0 => len k0 <= 20 end -> a <= 128 ->
    fcms cf C cb sid (fcsr cf C cb crit md subject pk) c = (Ok bs, c') ->
    len bs <= M + u + o + a + 343 + 2 * alg_max p + spki_max p + bits_max p + octets_max p.
  Proof.
    intros HCA HS Ha H. unfold fcms, fsd, fbind in H.
    destruct (fcsr cf C cb crit md subject pk c) as [[csr|e|k] c1] eqn:EC; cbn [fst snd] in H; try discriminate.
    apply request_len in EC; [|exact HCA]. unfold flift in H.
    destruct (rencap csr) as [e|e|k] eqn:EE; cbn [fst snd] in H; try discriminate.
    apply rencap_ok in EE as (h & -> & Hh). unfold fsign in H.
    destruct (cb (SDBuffer csr) false c1) as [[g|e] c2] eqn:EG; cbn [fst snd] in H; try discriminate.
    pose proof (octets_room p g (Hsig _ _ _ _ _ EG)) as HG. pose proof (sid_room sid a HS Ha) as HSD.
    assert (HR : rcms (sd_head cf sid ++ (h ++ csr) ++ sinfos cf sid g) = Ok bs) by congruence. clear H.
    unfold rcms in HR. apply wrap_len in HR as (b1 & HR & _ & L1). unfold rapp in HR. cbn [rbind] in HR. apply bind_ok in HR as (b2 & E2 & HR).
    apply ok_inj in HR. subst b1. apply wrap_len in E2 as (b3 & E3 & _ & L2). apply wrap_len in E3 as (b4 & E4 & _ & L3).
    apply ok_inj in E4. subst b4. rewrite !len_app in L1, L3. rewrite len_tlv in L1. change (gss (len oid_signed_data)) with 11 in L1.
    assert (LH : len (sd_head cf sid) = 18).
    { unfold sd_head. rewrite len_app, len_cms_version. elens. rewrite digest_room. destruct sid; reflexivity. }
    assert (LS : len (sinfos cf sid g) <= a + 26 + 16 + alg_max p + octets_max p + 8).
    { unfold sinfos, sinfo_der, signer_info, INTEGER. elens. rewrite digest_room. fold p. rewrite alg_room.
      assert (LV : gss (len (der_uint (cms_version sid))) = 3) by (destruct sid; reflexivity). rewrite ?LV.
      pose proof (octets_room p g (Hsig _ _ _ _ _ EG)).
      assert (A1 : alg_max p <= 13) by (unfold alg_max; destruct p; lia).
      assert (A2 : octets_max p <= 4631) by (unfold octets_max; destruct p; lia).
      match goal with |- gss (gss ?x + 0) <= _ => assert (X : x <= a + 26 + 16 + alg_max p + octets_max p) end.
      { elens. lia. }
      match goal with |- gss (gss ?x + 0) <= _ => pose proof (gss_room x ltac:(lia)); pose proof (gss_room (gss x + 0) ltac:(lia)) end. lia. }
    assert (LX : len ((h ++ csr) ++ sinfos cf sid g) = len h + len csr + len (sinfos cf sid g))
      by (unfold len; rewrite !app_length; lia).
    lia.
  Qed.
End Whole.
