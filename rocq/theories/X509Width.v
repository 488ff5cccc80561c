(** X509Width.v -- the writer never fails on its own: whatever the back end signs, the
    lengths it fills in afterwards have the width reserved for them, and what it runs out
    of is space in the buffer only. *)
From Verif Require Import Base Errors Types StateOps Env Wire Instance Commands Response Lib Spec Exec Effects Forest History Contract Codec Steps Reach CommandSpecs
  Responses Execute Walk Measure Der DerProofs X509 X509Cert X509Run X509Spec X509Bytes X509Enc X509Tbs X509Cms X509Out X509Proper X509Gen X509Read
  X509ReadOk X509Made X509Total X509Sane X509Cmd X509Facts X509Size X509Fit.
Open Scope N_scope.
Open Scope dpe_scope.

(** ** Signing that fails ends the writer; until then nothing depends on it *)

(** A back end that answers some signature where [cb] fails. *)
Definition any_sig (p : profile) : signature :=
  match p with P256Sha256 => SigEcdsa256 [] [] | P384Sha384 => SigEcdsa384 [] [] | Mldsa87 => SigMldsa [] end.
Definition willing {C} (p : profile) (cb : sign_data -> bool -> C -> (signature + crypto_error) * C)
  : sign_data -> bool -> C -> (signature + crypto_error) * C := fun x b c =>
  match cb x b c with (inl g, c') => (inl g, c') | (inr _, c') => (inl (any_sig p), c') end.

Section Alike.
  Context {C : Type}.
  Variable p : profile.
  Variable cb : sign_data -> bool -> C -> (signature + crypto_error) * C.
  Let cb' := willing p cb.
  (** [m] ends with an error that signing answered, or does what [m'] does. *)
  Definition alike {A} (m m' : W C A) : Prop := forall w,
    (exists e w', m w = (Err (CryptoErr e), w') /\ exists x b c c', cb x b c = (inr e, c')) \/ m' w = m w.
  Lemma alike_refl {A} (m : W C A) : alike m m.
  Proof. intros w. right. reflexivity. Qed.
  Lemma alike_bind {A B} (m m' : W C A) (f f' : A -> W C B) : alike m m' -> (forall a, alike (f a) (f' a)) -> alike (wbind m f) (wbind m' f').
  Proof.
    intros H1 H2 w. unfold wbind. destruct (H1 w) as [(e & w' & E & Hc)|E]; [left; rewrite E; eauto|].
    rewrite E. destruct (m w) as [[a|e|k] w1]; [apply H2|right; reflexivity|right; reflexivity].
  Qed.
  Lemma alike_add (m m' n n' : W C N) : alike m m' -> alike n n' -> alike (wadd m n) (wadd m' n').
  Proof. intros H1 H2. unfold wadd. apply alike_bind; [exact H1|intros a]. apply alike_bind; [exact H2|intros b; apply alike_refl]. Qed.
  Lemma alike_seq (l l' : list (W C N)) : Forall2 alike l l' -> alike (seq_of l) (seq_of l').
  Proof.
    unfold seq_of. generalize (alike_refl (@wret C N 0)). generalize (@wret C N 0) at 1 3. intros m Hm F. revert m Hm. generalize (@wret C N 0).
    induction F as [|a a' l l' Ha F IH]; intros m' m Hm; cbn [fold_left]; [exact Hm|]. apply IH, alike_add; assumption.
  Qed.

  Lemma alike_sign a b d : alike (call_sign cb a b d) (call_sign cb' a b d).
  Proof.
    intros w. unfold call_sign. destruct (N.leb a b && N.leb b (len (cw_buf w)))%bool; [|right; reflexivity].
    cbv zeta. unfold cb', willing. destruct (cb _ _ _) as [[g|e] c] eqn:E; [right; reflexivity|left; eauto 10].
  Qed.

  Variable cf : config.
  Ltac alikes := repeat (cbv zeta; match goal with
    | |- alike ?m ?m => apply alike_refl
    | |- alike (wbind _ _) (wbind _ _) => apply alike_bind; [|intros ?]
    | |- alike (call_sign _ _ _ _) (call_sign _ _ _ _) => apply alike_sign
    end).
  Lemma alike_payload m d : alike (encode_signed_payload cf C cb m d) (encode_signed_payload cf C cb' m d).
  Proof. unfold encode_signed_payload. alikes. Qed.
  Lemma alike_certificate crit serial issuer subject pk md v :
    alike (encode_certificate cf crit C cb serial issuer subject pk md v) (encode_certificate cf crit C cb' serial issuer subject pk md v).
  Proof. unfold encode_certificate. apply alike_bind; [apply alike_payload|intros n; apply alike_refl]. Qed.
  Lemma alike_csr crit pk subject md : alike (encode_csr cf crit C cb pk subject md) (encode_csr cf crit C cb' pk subject md).
  Proof. unfold encode_csr. apply alike_bind; [apply alike_payload|intros n; apply alike_refl]. Qed.
  Lemma alike_encap crit pk subject md :
    alike (encode_encapsulated_content_info cf crit C cb pk subject md) (encode_encapsulated_content_info cf crit C cb' pk subject md).
  Proof.
    unfold encode_encapsulated_content_info.
    do 7 (apply alike_bind; [apply alike_refl|intros ?]). apply alike_bind; [apply alike_csr|intros ?]. alikes.
  Qed.
  Lemma alike_cms crit pk subject md sid : alike (encode_cms cf crit C cb pk subject md sid) (encode_cms cf crit C cb' pk subject md sid).
  Proof.
    unfold encode_cms. cbv zeta. do 7 (apply alike_bind; [apply alike_refl|intros ?]).
    apply alike_bind.
    { apply alike_seq. repeat (constructor; [apply alike_refl|]). constructor; [apply alike_encap|constructor]. }
    intros ?. alikes.
  Qed.
End Alike.

(** ** The widths reserved for lengths are right *)

Lemma width_3 n : 256 <= n -> n < 65536 -> get_size_width n = 3.
Proof.
  intros A B. unfold get_size_width. destruct (N.ltb_spec n 128); [lia|]. destruct (N.ltb_spec n 256); [lia|]. destruct (N.ltb_spec n 65536); [reflexivity|lia].
Qed.
Lemma wrap_ok tag b : 256 <= len b -> len b < 65536 -> exists b', rwrap tag (Ok b) = Ok b' /\ len b' = len b + 4.
Proof.
  intros A B. unfold rwrap. cbn [rbind]. rewrite (width_3 _ A B). change (N.eqb 3 3) with true. cbv iota. eexists. split; [reflexivity|].
  rewrite len_tlv, gss_unfold, (width_3 _ A B). lia.
Qed.
Lemma spki_exact p k : key_of p k -> len (E (subject_public_key_info k)) = spki_max p.
Proof.
  destruct p, k as [x y|x y|b]; cbn [key_of]; try contradiction; intros _;
    unfold subject_public_key_info, BITS, OID, alg_id; elens; rewrite ?len_cons, ?len_app, ?length_to_vec; vm_compute; reflexivity.
Qed.
Lemma gss_ge n : n + 2 <= gss n.
Proof. rewrite gss_unfold. destruct (width_cases n) as [H|[H|[H|[H|H]]]]; rewrite H; lia. Qed.
Lemma info_least cf t r : (32 <= length (tci_current t))%nat -> 60 <= get_tcb_info_size cf t r true.
Proof.
  intros H. unfold get_tcb_info_size, get_fwid_size. rewrite !hash_oid_len. change (gss 9) with 11. change (gss 4) with 6.
  match goal with |- _ <= gss (gss (gss (11 + gss ?d)) + _ + _ + _) => pose proof (gss_ge d); pose proof (gss_ge (11 + gss d)); pose proof (gss_ge (gss (11 + gss d))); assert (32 <= d) by (unfold len; lia) end.
  match goal with |- _ <= gss ?x => pose proof (gss_ge x) end. lia.
Qed.

Lemma sid_size sid a : match sid with IssuerAndSerialNumber i0 n0 => len i0 <= a /\ len n0 <= 20
                       | SubjectKeyIdentifier k0 => len k0 <= 20 end -> a <= 128 ->
  len (E (sid_der sid)) <= a + 26.
Proof.
  intros HS Ha. destruct sid as [i0 n0|k0]; cbn [sid_der].
  - destruct HS as [HS1 HS2]. pose proof (serial_room n0 HS2) as HS3. rewrite len_tlv in HS3. elens. rewrite E_opaque.
    assert (X : len i0 + (gss (len (code_int n0)) + 0) <= a + 23) by lia.
    pose proof (gss_mono _ _ X). rewrite (gss_unfold (a + 23)) in *.
    assert (get_size_width (a + 23) <= 2) by (change 2 with (get_size_width 255); apply width_mono; lia). lia.
  - unfold OCTETS. cbn [enc_with map concat app]. rewrite app_nil_r. elens. shorten. lia.
Qed.

Section Whole.
  Variable cf : config.
  Hypothesis Hcf : config_ok cf.
  Variable s : state.
  Hypothesis W : wf cf s.
  Variables (i : nat) (cts : list context).
  Hypothesis Hlin : lineage s i cts.
  Variable md : measurement_data.
  Hypothesis Hctxs : md_contexts md = st_contexts s.
  Hypothesis Hstart : md_start md = i.
  Let p := prof cf.
  Let d := N.of_nat (tci_size cf).
  Let n := N.of_nat (length cts).
  Let r := md_recursive md.
  Context {C : Type}.
  Variable cb : sign_data -> bool -> C -> (signature + crypto_error) * C.
  Hypothesis Hsig : forall x b c, exists g c', cb x b c = (inl g, c') /\ sig_of p g.
  Variables (crit : bool) (subject : name) (pk : pubkey) (u o : N).
  Hypothesis Hkey : key_of p pk.
  Hypothesis Hchain : n <= 64.
  Hypothesis Hlabel : len (md_label md) <= u.
  Hypothesis Hu : u <= 48.
  Hypothesis Hski : len (md_ski md) = 20.
  Hypothesis Haki : len (md_aki md) = 20.
  Hypothesis Hsan : san_room (md_san md) <= o.
  Hypothesis Ho : o <= 100.
  Hypothesis Hname : len (E (name_der subject)) = if md_is_ca md then 104 else 96.
  Let M := info_max d r * n.

  Lemma M_small : M <= 10176.
  Proof. assert (I0 : info_max d r <= 159) by (clear; unfold info_max; destruct (N.leb d 32), r; lia). unfold M. clear - Hchain I0. nia. Qed.
  Lemma infos_least : 60 <= len (infos cf md (rev cts)).
  Proof.
    assert (X : exists c l, rev cts = c :: l).
    { destruct (rev cts) as [|c l] eqn:E0; [|eauto]. exfalso. apply (f_equal (@length context)) in E0. rewrite rev_length in E0.
      destruct cts as [|c l]; [|discriminate]. destruct Hlin as (ix & Hp & Hf). inversion Hf; subst. inversion Hp. }
    destruct X as (c & l & E0). rewrite E0. unfold infos. cbn [map concat]. rewrite len_app, len_tcb.
    assert (Hc : In c cts) by (apply in_rev; rewrite E0; left; reflexivity).
    pose proof (so_current _ _ _ (lineage_slots cf s i cts W Hlin c Hc)) as [L _].
    pose proof (info_least cf (c_tci c) (md_recursive md)) as Q. specialize (Q ltac:(rewrite L; unfold tci_size; destruct (_ || _); lia)). lia.
  Qed.

  Lemma tbs_total serial issuer v : len serial <= 20 -> len issuer <= 128 ->
    len (cv_not_before v) <= 24 -> len (cv_not_after v) <= 24 ->
    exists t, rtbs cf crit md serial issuer subject pk v = Ok t /\ 256 <= len t /\ len t <= 20000.
  Proof.
    intros Hser Hiss Hv1 Hv2. unfold rtbs, rspki, rexts. rewrite (spki_match cf pk Hkey).
    destruct (parts_room cf Hcf s W i cts Hlin md Hctxs Hstart) as (D & ED & EC & HD & HI). rewrite ED, EC. cbn [rbind]. eexists. split; [reflexivity|].
    pose proof (others_room crit md true u Hlabel Hu Hski Haki ltac:(lia)) as HO. cbv iota in HO.
    pose proof M_small as MS. fold d n r in HD, HI. fold M in HD, HI.
    pose proof (field_room crit md M (33 + (if md_is_ca md then 34 else 0) + u + 72 + o) D (infos cf md (rev cts))) as HF.
    specialize (HF ltac:(lia) ltac:(destruct (md_is_ca md); lia) ltac:(lia) HD HI).
    pose proof (spki_exact p pk Hkey) as HK. pose proof (serial_room serial Hser). fold p.
    assert (HV : len (E (SEQUENCE [GENERALIZED_TIME (cv_not_before v); GENERALIZED_TIME (cv_not_after v)])) <= 54).
    { unfold GENERALIZED_TIME. elens. shorten. lia. }
    assert (HL : 60 <= len (exts_field crit md true D (infos cf md (rev cts)))).
    { pose proof infos_least as IL. unfold exts_field, exts_raw, multi_raw. rewrite !len_app, !len_cons, !len_app, ?len_cons, ?len_app. lia. }
    rewrite !len_app, alg_room, Hname. change (len (E (CTX 0 [INTEGER 2]))) with 5.
    assert (91 <= spki_max p <= 2614) by (unfold spki_max; destruct p; lia). assert (12 <= alg_max p <= 13) by (unfold alg_max; destruct p; lia).
    destruct (md_is_ca md); lia.
  Qed.
  Lemma info_total : md_is_ca md = false ->
    exists t, rinfo cf crit md subject pk = Ok t /\ 256 <= len t /\ len t <= 20000.
  Proof.
    intros HCA. unfold rinfo, rspki, rattrs. rewrite (spki_match cf pk Hkey).
    destruct (parts_room cf Hcf s W i cts Hlin md Hctxs Hstart) as (D & ED & EC & HD & HI). rewrite ED, EC. cbn [rbind]. eexists. split; [reflexivity|].
    pose proof (others_room crit md false u Hlabel Hu Hski Haki ltac:(lia)) as HO. pose proof Hname as HN. rewrite HCA in HO, HN. cbv iota in HO, HN.
    pose proof M_small as MS. fold d n r in HD, HI. fold M in HD, HI.
    pose proof (attrs_room crit md M (u + 72 + o) D (infos cf md (rev cts))) as HF.
    specialize (HF ltac:(lia) ltac:(lia) ltac:(lia) HD HI). pose proof (spki_exact p pk Hkey) as HK.
    assert (HL : 70 <= len (attrs_raw crit md D (infos cf md (rev cts)))).
    { pose proof infos_least as IL. unfold attrs_raw, exts_raw, multi_raw. rewrite !len_cons, !len_app, !len_cons, !len_app, len_tlv, !len_cons, !len_app, !len_cons, !len_app, ?len_cons, ?len_app.
      change (gss (len oid_ext_request)) with 11. lia. }
    rewrite !len_app, HN. change (len (E (INTEGER 0))) with 3.
    assert (91 <= spki_max p <= 2614) by (unfold spki_max; destruct p; lia). lia.
  Qed.

  Lemma signed_total f derived c b : f = Ok b -> 256 <= len b -> len b <= 30000 ->
    exists bs c', fsigned cf C cb (flift f) derived c = (Ok bs, c') /\ len b <= len bs /\ len bs <= len b + 5000.
  Proof.
    intros -> L1 L2. unfold fsigned, fwrap, fbind, flift, fsign. destruct (Hsig (SDBuffer b) derived c) as (g & c1 & -> & HG).
    pose proof (bits_room p g HG) as HB. assert (BM : bits_max p <= 4632) by (unfold bits_max; destruct p; lia).
    assert (AM : alg_max p <= 13) by (unfold alg_max; destruct p; lia).
    assert (LB : len (bits_of cf g) <= 4650) by (unfold bits_of; rewrite len_app; fold p; rewrite alg_room; lia).
    rewrite (width_3 (len (b ++ bits_of cf g))) by (rewrite len_app; lia). change (N.eqb 3 3) with true. cbv iota.
    eexists. eexists. split; [reflexivity|]. rewrite len_tlv, gss_unfold, (width_3 (len (b ++ bits_of cf g))) by (rewrite len_app; lia). rewrite len_app. lia.
  Qed.

  (** Certificates are generated. *)
  Lemma cert_total serial issuer v c : len serial <= 20 -> len issuer <= 128 -> len (cv_not_before v) <= 24 -> len (cv_not_after v) <= 24 ->
    exists bs c', fsigned cf C cb (flift (rwrap 0x30 (rtbs cf crit md serial issuer subject pk v))) false c = (Ok bs, c').
  Proof.
    intros H1 H2 H3 H4. destruct (tbs_total serial issuer v H1 H2 H3 H4) as (t & -> & L1 & L2).
    destruct (wrap_ok 0x30 t L1 ltac:(lia)) as (t2 & Et & Lt). destruct (signed_total _ false c _ Et ltac:(lia) ltac:(lia)) as (bs & c' & E0 & _). eauto.
  Qed.

  (** Requests are generated. *)
  Lemma message_total sid a c : md_is_ca md = false ->
    match sid with IssuerAndSerialNumber i0 n0 => len i0 <= a /\ len n0 <= 20 | SubjectKeyIdentifier k0 => len k0 <= 20 end -> a <= 128 ->
    exists bs c', fcms cf C cb sid (fcsr cf C cb crit md subject pk) c = (Ok bs, c').
  Proof.
    intros HCA HS Ha. destruct (info_total HCA) as (t & Et & L1 & L2). destruct (wrap_ok 0x30 t L1 ltac:(lia)) as (t2 & Et2 & Lt).
    unfold fcms, fsd, fbind, fcsr. rewrite Et. destruct (signed_total _ true c _ Et2 ltac:(lia) ltac:(lia)) as (csr & c1 & -> & L3 & L4).
    unfold flift.
    assert (EE : exists e, rencap csr = Ok e /\ len csr <= len e /\ len e <= len csr + 40).
    { unfold rencap. destruct (wrap_ok 4 csr ltac:(lia) ltac:(lia)) as (e1 & -> & Le1). destruct (wrap_ok 0xA0 e1 ltac:(lia) ltac:(lia)) as (e2 & -> & Le2).
      unfold rapp. cbn [rbind]. assert (LE : len (tlv code_len 6 oid_data ++ e2) = 11 + len e2) by (rewrite len_app, len_tlv; reflexivity).
      destruct (wrap_ok 0x30 (tlv code_len 6 oid_data ++ e2) ltac:(lia) ltac:(lia)) as (e3 & Ee3 & Le3).
      exists e3. split; [exact Ee3|]. lia. }
    destruct EE as (e & -> & L5 & L6). unfold fsign. destruct (Hsig (SDBuffer csr) false c1) as (g & c2 & -> & HG).
    pose proof (octets_room p g HG) as HO. pose proof (sid_size sid a HS Ha) as HSD.
    assert (A1 : alg_max p <= 13) by (unfold alg_max; destruct p; lia).
    assert (A2 : octets_max p <= 4631) by (unfold octets_max; destruct p; lia).
    assert (LH : len (sd_head cf sid) = 18).
    { unfold sd_head. rewrite len_app, len_cms_version. elens. rewrite digest_room. destruct sid; reflexivity. }
    assert (LS : len (sinfos cf sid g) <= 5000).
    { unfold sinfos, sinfo_der, signer_info, INTEGER. elens. rewrite digest_room. fold p. rewrite alg_room.
      assert (LV : gss (len (der_uint (cms_version sid))) = 3) by (destruct sid; reflexivity). rewrite ?LV.
      match goal with |- gss (gss ?x + 0) <= _ => assert (X : x <= 4900) by (elens; lia) end.
      match goal with |- gss (gss ?x + 0) <= _ => pose proof (gss_room x ltac:(lia)); pose proof (gss_room (gss x + 0) ltac:(lia)) end. lia. }
    assert (LX : len (sd_head cf sid ++ e ++ sinfos cf sid g) = 18 + len e + len (sinfos cf sid g)) by (rewrite !len_app; lia).
    unfold rcms. destruct (wrap_ok 0x30 (sd_head cf sid ++ e ++ sinfos cf sid g) ltac:(lia) ltac:(lia)) as (b1 & -> & Lb1).
    destruct (wrap_ok 0xA0 b1 ltac:(lia) ltac:(lia)) as (b2 & -> & Lb2). unfold rapp. cbn [rbind].
    assert (LC : len (tlv code_len 6 oid_signed_data ++ b2) = 11 + len b2) by (rewrite len_app, len_tlv; reflexivity).
    destruct (wrap_ok 0x30 (tlv code_len 6 oid_signed_data ++ b2) ltac:(lia) ltac:(lia)) as (b3 & Eb3 & _).
    exists b3, c2. apply (f_equal (fun x => (x, c2))) in Eb3. exact Eb3.
  Qed.
End Whole.
