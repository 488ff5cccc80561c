(** X509Cms.v -- what [encode_cms] writes: a SignedData around a certification
    request, signed over exactly the bytes of that request. *)
From Verif Require Import Base Errors Types StateOps Env Lib Der DerProofs X509 X509Run X509Spec X509Bytes X509Enc X509Tbs.
Open Scope N_scope.

(** ** Filling in several lengths *)

Section Refill.
  Variable C : Type.
  Implicit Types w : cw C.

  Lemma push_ok w : (length (cw_back w) < max_backtracks)%nat ->
    push_backtrack 3 w = (Ok (cw_off w + 3),
      mkCw (cw_buf w) (cw_off w + 3) (cw_csr w) ((cw_off w, cw_off w + 3) :: cw_back w) (cw_saved w) (cw_c w)).
  Proof. intros H. unfold push_backtrack. destruct (Nat.ltb_spec (length (cw_back w)) max_backtracks); [reflexivity|lia]. Qed.

  (** One [pop_backtrack] and length field, inside [start_backtrack] .. [end_backtrack]. *)
  Lemma refill_step {A} s (f : N -> W C A) w o a l : cw_saved w = Some o -> cw_back w = (a, a + 3) :: l ->
    a + 3 <= len (cw_buf w) ->
    wbind (pop_backtrack (get_size_width s)) (fun _ => wbind (encode_size_field s) f) w =
      if N.eqb (get_size_width s) 3
      then f 3 (mkCw (put_at (cw_buf w) a (code_len s)) (a + 3) (cw_csr w) l (Some o) (cw_c w))
      else (Err X509InvalidWidth, mkCw (cw_buf w) (cw_off w) (cw_csr w) l (Some o) (cw_c w)).
  Proof.
    intros Hs Hb HL. pose proof (pop_3 C w o a l (get_size_width s) Hs Hb) as EP. rewrite Hs in EP.
    destruct (N.eqb_spec (get_size_width s) 3) as [E0|E0].
    - rewrite (wbind_ok _ _ _ _ _ _ EP).
      match goal with |- context [wbind (encode_size_field s) _ ?x] =>
        destruct (pure_size C s x) as (b & Eb & Lb & Fb & Pb) end.
      rewrite (wbind_ok _ _ _ _ _ _ Eb). unfold fits in Fb. cbn [cw_buf cw_off cw_csr cw_back cw_saved cw_c] in *.
      rewrite len_code_len, E0 in *. rewrite (Fb HL). reflexivity.
    - rewrite (wbind_err _ _ _ _ _ _ EP). reflexivity.
  Qed.

  Lemma backfill_fit {A} s (f : N -> W C A) w a l : cw_saved w = None -> cw_back w = (a, a + 3) :: l ->
    a + 3 <= len (cw_buf w) ->
    wbind (backfill s) f w =
      if N.eqb (get_size_width s) 3
      then f 3 (mkCw (put_at (cw_buf w) a (code_len s)) (cw_off w) (cw_csr w) l None (cw_c w))
      else (Err X509InvalidWidth, mkCw (cw_buf w) (cw_off w) (cw_csr w) l (Some (cw_off w)) (cw_c w)).
  Proof.
    intros Hs Hb HL. unfold wbind at 1, backfill. rewrite (wbind_ok _ _ _ _ _ _ (start_ok C w Hs)).
    match goal with |- context [wbind (pop_backtrack _) _ ?x] => set (w1 := x) end.
    rewrite (refill_step s _ w1 (cw_off w) a l eq_refl Hb HL).
    destruct (N.eqb (get_size_width s) 3); reflexivity.
  Qed.

  (** Where the writer records the request. *)
  Definition locates (d : nat) (a : N) (m : W C N) : Prop := forall w n w',
    cw_saved w = None -> (length (cw_back w) + d <= max_backtracks)%nat ->
    m w = (Ok n, w') -> cw_csr w' = Some (cw_off w + a, cw_off w + n).

  Lemma locates_ext d a m m' : (forall w, m w = m' w) -> locates d a m -> locates d a m'.
  Proof. intros H HL w n w' Hs Hb E0. rewrite <- H in E0. eapply HL; eassumption. Qed.

  Lemma locates_similar d a m m' : similar d m m' -> locates d a m -> locates d a m'.
  Proof.
    intros HS HL w n w' Hs Hb E0. destruct (HS w Hs Hb) as (A & _ & _ & F). rewrite E0 in *.
    cbn [fst snd] in *. specialize (F n A). destruct (m w) as [r1 w1] eqn:E1. cbn [fst snd] in *. subst r1 w1.
    eapply HL; eassumption.
  Qed.

  Lemma locates_add d a m1 m2 bs : pure m1 bs -> locates d a m2 -> locates d (len bs + a) (wadd m1 m2).
  Proof.
    intros HP HL w n w' Hs Hb. unfold wadd. destruct (HP w) as (b & Eb & _). rewrite (wbind_ok _ _ _ _ _ _ Eb).
    unfold wbind, wret. destruct (m2 _) as [[k|?|?] w2] eqn:E2; try discriminate.
    intros E0. pose proof (f_equal fst E0) as E3. pose proof (f_equal snd E0) as E4.
    cbn [fst snd] in E3, E4. apply ok_inj in E3. rewrite <- E3, <- E4. apply HL in E2; [|exact Hs|exact Hb]. cbn [cw_off] in E2. rewrite E2.
    do 2 f_equal; lia.
  Qed.

  Lemma locates_wrap3 k d a tag body f :
    runs k d (fun w => body (cw_off w) w) f -> locates d a (fun w => body (cw_off w) w) ->
    locates (S d) (4 + a) (wrap3 tag body).
  Proof.
    intros HR HL w n w' Hs Hb. unfold wrap3. destruct (pure_tag C tag w) as (b & Eb & _).
    rewrite (wbind_ok _ _ _ _ _ _ Eb). unfold size_tag_offset.
    match goal with |- wbind _ _ ?x = _ -> _ => rewrite (wbind_ok _ _ _ _ _ _ (push_ok x ltac:(cbn [cw_back]; lia))) end.
    cbn [cw_buf cw_off cw_csr cw_back cw_saved cw_c]. change (len [tag]) with 1.
    set (w1 := mkCw b (cw_off w + 1 + 3) (cw_csr w) ((cw_off w + 1, cw_off w + 1 + 3) :: cw_back w) (cw_saved w) (cw_c w)).
    assert (HB1 : (length (cw_back w1) + d <= max_backtracks)%nat) by (cbn [w1 cw_back length]; lia).
    pose proof (HR w1 Hs HB1) as O. specialize (HL w1). unfold outc in O. cbv beta in O, HL. change (cw_off w1) with (cw_off w + 1 + 3) in *.
    unfold wbind at 1. destruct (body (cw_off w + 1 + 3) w1) as [[m|?|?] w2]; try discriminate.
    specialize (HL m w2 Hs HB1 eq_refl). cbn [fst snd] in O.
    inversion O as [bs c' w'' Hf K P Hk Eo Eb2 Es Ec E1 E2| | |]; subst.
    pose proof (backfill_spec C w2 (len bs) (cw_off w + 1) (cw_back w)
      ltac:(rewrite Es; exact Hs) ltac:(rewrite Eb2; reflexivity) ltac:(rewrite Eo; cbn [w1 cw_off]; lia)) as BF.
    unfold wbind. destruct (N.eqb (get_size_width (len bs)) 3).
    - destruct BF as (b3 & -> & _). unfold wret. intros E0. pose proof (f_equal fst E0) as E3. pose proof (f_equal snd E0) as E4.
      cbn [fst snd] in E3, E4. apply ok_inj in E3. rewrite <- E3, <- E4. cbn [cw_csr].
      rewrite HL. do 2 f_equal; lia.
    - destruct BF as (w3 & -> & _). discriminate.
  Qed.
End Refill.
Arguments locates {C} _ _ _.

(** ** The encapsulated request *)

Definition rencap (csr : bytes) : result bytes :=
  rwrap 0x30 (rapp (Ok (tlv code_len 6 oid_data)) (rwrap 0xA0 (rwrap 4 (Ok csr)))).

Section Encap.
  Variable C : Type.

  Definition record_csr (csr : W C N) (offset : N) : W C N :=
    wbind csr (fun n => wbind (set_csr (offset, offset + n)) (fun _ => wret n)).
  (** The nested form of encode_encapsulated_content_info. *)
  Definition encap_body (csr : W C N) : W C N :=
    wadd (encode_oid C oid_data) (wrap3 0xA0 (fun _ => wrap3 4 (record_csr csr))).
  Definition encap (csr : W C N) : W C N := wrap3 0x30 (fun _ => encap_body csr).

  Lemma runs_record k d csr f : runs k d csr f -> runs k d (fun w => record_csr csr (cw_off w) w) f.
  Proof.
    intros H w Hs Hb. pose proof (H w Hs Hb) as O. unfold record_csr, wbind, outc in *.
    destruct (csr w) as [[n|e|x] w1]; cbn [fst snd] in *.
    - unfold set_csr, wret. cbn [fst snd]. inversion O; subst. eapply OutDone; eauto.
    - exact O.
    - exact O.
  Qed.
  Lemma locates_record d csr : locates d 0 (fun w => record_csr csr (cw_off w) w).
  Proof.
    intros w n w' Hs Hb. unfold record_csr, wbind, set_csr, wret. destruct (csr w) as [[m|?|?] w1]; try discriminate.
    intros E0. injection E0 as <- <-. cbn [cw_csr]. rewrite N.add_0_r. reflexivity.
  Qed.

  Definition fencap (f : gen C) : gen C := fbind f (fun csr => flift (rencap csr)).

  Lemma runs_encap d csr f : runs true d csr f -> runs true (3 + d) (encap csr) (fencap f).
  Proof.
    intros H. eapply runs_feq.
    2: { unfold encap, encap_body. apply (runs_wrap3 C true (2 + d) 0x30 (fun _ => _)).
         eapply (runs_add C false true); [eapply runs_weaken; [apply (pure_runs C), pure_oid|lia]|].
         apply (runs_wrap3 C true (1 + d) 0xA0 (fun _ => _)). apply (runs_wrap3 C true d 4).
         apply runs_record, H. }
    intros c. unfold fencap, rencap, rwrap, rapp, fwrap, fseq, fbind, fpure, flift.
    destruct (f c) as [[csr0|e|x] c']; try reflexivity. cbn [rbind].
    repeat match goal with |- context [if ?b then _ else _] => destruct b; cbn [rbind]; try reflexivity end.
  Qed.

  Lemma locates_encap d csr f : runs true d csr f -> locates (3 + d) 23 (encap csr).
  Proof.
    intros H. change 23 with (4 + (len (tlv code_len 6 oid_data) + (4 + (4 + 0)))).
    pose proof (runs_wrap3 C true d 4 _ _ (runs_record true d csr f H)) as R1.
    pose proof (runs_wrap3 C true (1 + d) 0xA0 (fun _ => wrap3 4 (record_csr csr)) _ R1) as R2.
    pose proof (pure_runs C _ _ (pure_oid C oid_data)) as R0.
    unfold encap. eapply locates_wrap3.
    - unfold encap_body. eapply (runs_add C false true); [eapply runs_weaken; [exact R0|lia]|exact R2].
    - unfold encap_body. eapply locates_ext; [reflexivity|]. apply locates_add; [apply pure_oid|].
      eapply locates_wrap3; [exact R1|]. eapply locates_ext; [reflexivity|].
      eapply locates_wrap3; [apply runs_record, H|]. apply locates_record.
  Qed.

  (** Two nested reserved lengths around [inner], the shape shared by
      encode_encapsulated_content_info and encode_cms: the code fills in all
      lengths at the end. *)
  Lemma similar_encap cf crit cb pk subject md d f :
    runs true d (encode_csr cf crit C cb pk subject md) f ->
    similar (3 + d) (encap (encode_csr cf crit C cb pk subject md))
                    (encode_encapsulated_content_info cf crit C cb pk subject md).
  Proof.
    set (csr := encode_csr cf crit C cb pk subject md). intros H w Hs Hb.
    unfold encap, encap_body, wrap3, encode_encapsulated_content_info, wadd. fold csr.
    unfold T_SEQUENCE, T_OCTET_STRING, size_tag_offset. change (N.lor CONTEXT_SPECIFIC CONSTRUCTED) with 0xA0.
    change (@encode_tag_field C) with (@encode_byte C).
    (* the common prefix *)
    destruct (pure_byte C 0x30 w) as (b0 & E0 & L0 & _). rewrite !(wbind_ok _ _ _ _ _ _ E0). clear E0.
    match goal with |- context [mkCw b0 ?o ?r ?k ?s ?c] =>
      pose proof (push_ok C (mkCw b0 o r k s c) ltac:(cbn [cw_back]; lia)) as E0 end.
    rewrite !(wbind_ok _ _ _ _ _ _ E0). clear E0. cbn [cw_buf cw_off cw_csr cw_back cw_saved cw_c].
    rewrite !(wbind_assoc C (encode_oid C oid_data)).
    match goal with |- context [mkCw b0 ?o ?r ?k ?s ?c] =>
      destruct (pure_oid C oid_data (mkCw b0 o r k s c)) as (b1 & E0 & L1 & _) end.
    rewrite !(wbind_ok _ _ _ _ _ _ E0). clear E0. cbn [cw_buf cw_off cw_csr cw_back cw_saved cw_c] in *.
    rewrite !wbind_assoc.
    match goal with |- context [mkCw b1 ?o ?r ?k ?s ?c] =>
      destruct (pure_byte C 0xA0 (mkCw b1 o r k s c)) as (b2 & E0 & L2 & _) end.
    rewrite !(wbind_ok _ _ _ _ _ _ E0). clear E0. cbn [cw_buf cw_off cw_csr cw_back cw_saved cw_c] in *.
    rewrite !wbind_assoc.
    match goal with |- context [mkCw b2 ?o ?r ?k ?s ?c] =>
      pose proof (push_ok C (mkCw b2 o r k s c) ltac:(cbn [cw_back length]; lia)) as E0 end.
    rewrite !(wbind_ok _ _ _ _ _ _ E0). clear E0. cbn [cw_buf cw_off cw_csr cw_back cw_saved cw_c].
    rewrite !wbind_assoc.
    match goal with |- context [mkCw b2 ?o ?r ?k ?s ?c] =>
      destruct (pure_byte C 4 (mkCw b2 o r k s c)) as (b3 & E0 & L3 & _) end.
    rewrite !(wbind_ok _ _ _ _ _ _ E0). clear E0. cbn [cw_buf cw_off cw_csr cw_back cw_saved cw_c] in *.
    rewrite !wbind_assoc.
    match goal with |- context [mkCw b3 ?o ?r ?k ?s ?c] =>
      pose proof (push_ok C (mkCw b3 o r k s c) ltac:(cbn [cw_back length]; lia)) as E0 end.
    rewrite !(wbind_ok _ _ _ _ _ _ E0). clear E0. cbn [cw_buf cw_off cw_csr cw_back cw_saved cw_c].
    rewrite !wbind_assoc. unfold record_csr. rewrite !wbind_assoc.
    change (len [48]) with 1. change (len [160]) with 1. change (len [4]) with 1.
    set (o1 := cw_off w + 1). set (lo := len (tlv code_len 6 oid_data)). set (o2 := o1 + 3 + lo + 1).
    set (o3 := o2 + 3 + 1).
    match goal with |- context [wbind csr _ ?x] => set (w3 := x) end.
    assert (HB : (length (cw_back w3) + d <= max_backtracks)%nat) by (cbn [w3 cw_back length]; lia).
    pose proof (H w3 Hs HB) as O. unfold outc in O. unfold wbind at 1.
    match goal with |- simres _ ?y => set (rhs := y) end.
    destruct (csr w3) as [[n|e|x] w4] eqn:Ecsr; unfold rhs; clear rhs.
    2,3: unfold wbind at 1; rewrite Ecsr; apply simres_refl.
    rewrite (wbind_ok _ _ _ _ _ _ Ecsr). cbn [fst snd] in O.
    inversion O as [bs c' w'' Hf K P Hk Eo Eb2 Es Ec E1 E2| | |]; subst w'' n. specialize (Hk eq_refl).
    unfold fits in Hk. cbn [w3 cw_off cw_buf] in Hk.
    assert (LB : len (cw_buf w4) = len b3) by (unfold len; rewrite (proj1 K); reflexivity).
    assert (ES : set_csr (o3 + 3, o3 + 3 + len bs) w4 =
      (Ok tt, mkCw (cw_buf w4) (cw_off w4) (Some (o3 + 3, o3 + 3 + len bs)) (cw_back w4) (cw_saved w4) (cw_c w4)))
      by reflexivity.
    rewrite !wbind_assoc. rewrite !(wbind_ok _ _ _ _ _ _ ES). clear ES.
    match goal with |- context [start_backtrack] => idtac end.
    set (w5 := mkCw (cw_buf w4) (cw_off w4) (Some (o3 + 3, o3 + 3 + len bs)) (cw_back w4) (cw_saved w4) (cw_c w4)).
    assert (S5 : cw_saved w5 = None) by (cbn [w5 cw_saved]; rewrite Es; exact Hs).
    assert (B5 : cw_back w5 = (o3, o3 + 3) :: (o2, o2 + 3) :: (o1, o1 + 3) :: cw_back w)
      by (cbn [w5 cw_back]; rewrite Eb2; reflexivity).
    rewrite (wbind_ok _ _ _ _ _ _ (start_ok C w5 S5)).
    change (get_key_identifier_size (len bs) false false) with (len bs).
    change (get_key_identifier_size (len bs) true false) with (gss (len bs)). rewrite gss_unfold.
    unfold wbind at 1, wret at 1. rewrite wbind_assoc.
    rewrite (backfill_fit C (len bs) _ w5 o3 _ S5 B5) by (cbn [w5 cw_buf]; lia).
    match goal with |- context [wbind (pop_backtrack _) _ ?x] =>
      erewrite (refill_step C (len bs) _ x (cw_off w5) o3 _ eq_refl B5) by (cbn [w5 cw_buf]; lia) end.
    destruct (N.eqb_spec (get_size_width (len bs)) 3) as [W1|W1]; [|repeat split; discriminate].
    rewrite W1. unfold wbind at 1, wret at 1. rewrite wbind_assoc.
    cbn [w5 cw_buf cw_off cw_csr cw_back cw_saved cw_c].
    erewrite backfill_fit by (cbn [cw_saved cw_back cw_buf]; rewrite ?len_put_at; first [reflexivity|lia]).
    erewrite refill_step by (cbn [cw_saved cw_back cw_buf]; rewrite ?len_put_at; first [reflexivity|lia]).
    destruct (N.eqb_spec (get_size_width (1 + 3 + len bs)) 3) as [W2|W2]; [|repeat split; discriminate].
    unfold wbind at 1 2, wret at 1 2.
    cbn [w5 cw_buf cw_off cw_csr cw_back cw_saved cw_c].
    replace (lo + 1 + 1 + 3 + 3 + len bs) with (lo + (1 + 3 + (1 + 3 + len bs))) by lia.
    erewrite backfill_fit by (cbn [cw_saved cw_back cw_buf]; rewrite ?len_put_at; first [reflexivity|lia]).
    erewrite refill_step by (cbn [cw_saved cw_back cw_buf]; rewrite ?len_put_at; first [reflexivity|lia]).
    destruct (N.eqb_spec (get_size_width (lo + (1 + 3 + (1 + 3 + len bs)))) 3) as [W3|W3]; [|repeat split; discriminate].
    unfold wbind, wret, end_backtrack. cbn [cw_buf cw_off cw_csr cw_back cw_saved cw_c].
    repeat split; cbn [fst]. f_equal. lia.
  Qed.
End Encap.

(** ** Signer information *)

(** The signer identifier as the code writes it.  RFC 5652 5.3 has the key
    identifier itself as the contents of the [0] IMPLICIT OCTET STRING; the code
    puts a complete OCTET STRING there. *)
Definition sid_der (s : signer_identifier) : der :=
  match s with
  | IssuerAndSerialNumber issuer serial => SEQUENCE [Opaque issuer; Prim 2 (code_int serial)]
  | SubjectKeyIdentifier kid => Wrap 0x80 [] [OCTETS kid]
  end.

Lemma seq_of_3 {C} (a b c : W C N) : seq_of [a; b; c] = wadd (wadd (wadd (wret 0) a) b) c.
Proof. reflexivity. Qed.

Lemma E_set d : E (SET [d]) = ([] ++ [T_SET]) ++ code_len (len (E d)) ++ E d.
Proof. unfold SET. cbn [enc_with map concat]. rewrite app_nil_r. reflexivity. Qed.
Lemma fseq_pure {C} a b c (x : C) : fseq (fpure (a ++ b)) (fpure c) x = fpure (a ++ b ++ c) x.
Proof. unfold fseq, fbind, fpure. rewrite <- app_assoc. reflexivity. Qed.

Section SignerInfo.
  Variable cf : config.
  Variable C : Type.
  Let p := prof cf.

  Definition sinfo_der (sid : signer_identifier) (g : signature) : der :=
    signer_info p (cms_version sid) (sid_der sid) g.

  Lemma pure_cms_version sid : pure (encode_cms_version C sid) (E (INTEGER (cms_version sid))).
  Proof.
    unfold encode_cms_version, encode_integer. eapply pure_eq; [apply pure_integer_bytes|].
    destruct sid; reflexivity.
  Qed.
  Lemma len_cms_version sid : len (E (INTEGER (cms_version sid))) = get_cms_version_size sid.
  Proof. destruct sid; reflexivity. Qed.
  Lemma pure_sid sid : pure (encode_signer_identifier C sid) (E (sid_der sid)).
  Proof.
    destruct sid as [issuer serial|kid]; cbn [encode_signer_identifier sid_der].
    - unfold encode_issuer_and_serial, SEQUENCE, get_issuer_and_serial_size.
      eapply pure_eq; [eapply pure_seq; pitems|]. bnorm. beq.
      rewrite get_int_tagged. lia.
    - unfold encode_subject_key_identifier, OCTETS, get_key_identifier_size.
      eapply pure_eq; [eapply pure_seq; pitems|]. bnorm. beq.
  Qed.
  Lemma len_sid sid : len (E (sid_der sid)) = get_signer_identifier_size sid true.
  Proof.
    destruct sid as [issuer serial|kid]; cbn [sid_der get_signer_identifier_size].
    - unfold SEQUENCE, get_issuer_and_serial_size. bnorm.
      rewrite len_tlv, len_app, len_tlv, get_int_tagged. f_equal. lia.
    - unfold OCTETS, get_key_identifier_size. bnorm. rewrite !len_tlv. reflexivity.
  Qed.

  Lemma len_sinfo_body sid g :
    len (E (INTEGER (cms_version sid)) ++ E (sid_der sid) ++ E (alg_id (digest_oid p))
         ++ E (alg_id (sig_alg_oid p)) ++ E (signature_octets g)) = get_signer_info_size cf g sid false.
  Proof.
    unfold p, get_signer_info_size. rewrite gss_false, !len_app, len_cms_version, len_sid, (len_hash_alg cf).
    pose proof (len_signature_octets cf g) as L. rewrite len_app in L. rewrite <- L. lia.
  Qed.
  Lemma sinfo_eq sid g : E (sinfo_der sid g) =
    0x30 :: code_len (get_signer_info_size cf g sid false) ++ E (INTEGER (cms_version sid)) ++ E (sid_der sid)
      ++ E (alg_id (digest_oid p)) ++ E (alg_id (sig_alg_oid p)) ++ E (signature_octets g).
  Proof.
    rewrite <- len_sinfo_body. unfold sinfo_der, signer_info, SEQUENCE at 1. cbn [enc_with map concat].
    rewrite app_nil_r, tlv_unfold. reflexivity.
  Qed.
  Lemma len_sinfo sid g : len (E (sinfo_der sid g)) = get_signer_info_size cf g sid true.
  Proof.
    rewrite sinfo_eq, len_cons, len_app, len_code_len, len_sinfo_body. unfold get_signer_info_size.
    rewrite gss_false, gss_unfold. lia.
  Qed.

  Lemma runs_sinfo sid g : runs true 0 (encode_signer_info cf C g sid) (fpure (E (sinfo_der sid g))).
  Proof.
    unfold encode_signer_info. eapply runs_check, pure_runs. rewrite sinfo_eq.
    eapply pure_eq; [eapply pure_seq|].
    - constructor; [apply pure_tag|]. constructor; [apply pure_size|]. constructor; [apply pure_cms_version|].
      constructor; [apply pure_sid|]. constructor; [apply pure_hash_alg|].
      constructor; [apply pure_signature_octets|]. constructor.
    - cbn [concat app]. rewrite app_nil_r. reflexivity.
  Qed.

  Definition sinfos (sid : signer_identifier) (g : signature) : bytes := E (SET [sinfo_der sid g]).
  Lemma runs_sinfos sid g :
    runs true 0 (seq_of [ encode_tag_field T_SET; encode_size_field (get_signer_info_size cf g sid true);
                          encode_signer_info cf C g sid ]) (fpure (sinfos sid g)).
  Proof.
    rewrite seq_of_3. eapply runs_feq; [|eapply runs_add].
    2: { apply pure_runs. eapply pure_add; [eapply pure_add; [apply pure_ret|apply pure_tag]|apply pure_size]. }
    2: apply runs_sinfo.
    intros c. unfold sinfos. rewrite E_set, len_sinfo. apply fseq_pure.
  Qed.

  Definition sd_head (sid : signer_identifier) : bytes :=
    E (INTEGER (cms_version sid)) ++ E (SET [alg_id (digest_oid p)]).
  Definition sd_head_enc (sid : signer_identifier) : W C N :=
    seq_of [ encode_cms_version C sid; encode_tag_field T_SET;
             encode_size_field (get_hash_alg_id_size cf true); encode_hash_alg_id cf C ].
  Lemma pure_sd_head sid : pure (sd_head_enc sid) (sd_head sid).
  Proof.
    eapply pure_eq; [eapply pure_seq|].
    - constructor; [apply pure_cms_version|]. constructor; [apply pure_tag|]. constructor; [apply pure_size|].
      constructor; [apply pure_hash_alg|]. constructor.
    - unfold sd_head. cbn [concat app]. rewrite app_nil_r. unfold SET. cbn [enc_with map concat].
      rewrite app_nil_r, tlv_unfold. unfold p. rewrite (len_hash_alg cf). reflexivity.
  Qed.
End SignerInfo.

(** ** SignedData *)

Section Cms.
  Variable cf : config.
  Variable crit : bool.
  Variable C : Type.
  Variable cb : sign_data -> bool -> C -> (signature + crypto_error) * C.
  Variables (pk : pubkey) (subject : name) (md : measurement_data) (sid : signer_identifier).
  Let p := prof cf.
  Let csr := encode_csr cf crit C cb pk subject md.
  Let ecsr := encode_encapsulated_content_info cf crit C cb pk subject md.

  Definition sd_body : W C N :=
    wbind (wadd (sd_head_enc cf C sid) ecsr) (fun sd1 =>
    wbind get_csr (fun r =>
    wbind (call_sign cb (fst r) (snd r) false) (fun sg =>
    wbind (seq_of [ encode_tag_field T_SET; encode_size_field (get_signer_info_size cf sg sid true);
                    encode_signer_info cf C sg sid ]) (fun sd2 => wret (sd1 + sd2))))).

  (** Signs the request, wraps it, and appends the signer information. *)
  Definition fsd (f : gen C) : gen C :=
    fbind f (fun bs => fbind (flift (rencap bs)) (fun e =>
      fsign C cb bs false (fun g => sd_head cf sid ++ e ++ sinfos cf sid g))).

  Lemma rencap_ok bs e : rencap bs = Ok e -> exists h, e = h ++ bs /\ len h = 23.
  Proof.
    unfold rencap, rwrap, rapp. cbn [rbind].
    destruct (N.eqb_spec (get_size_width (len bs)) 3) as [W1|]; cbn [rbind]; [|discriminate].
    destruct (N.eqb_spec (get_size_width (len (tlv code_len 4 bs))) 3) as [W2|]; cbn [rbind]; [|discriminate].
    match goal with |- context [N.eqb (get_size_width (len ?x)) 3] => destruct (N.eqb_spec (get_size_width (len x)) 3) as [W3|] end;
      [|discriminate].
    intros E0. apply ok_inj in E0. subst e. rewrite (tlv_unfold 4 bs), (tlv_unfold 0xA0), (tlv_unfold 0x30) in *.
    match goal with |- context [0x30 :: code_len ?a ++ tlv code_len 6 oid_data ++ 0xA0 :: code_len ?b ++ 4 :: code_len ?c ++ bs] =>
      exists (0x30 :: code_len a ++ tlv code_len 6 oid_data ++ 0xA0 :: code_len b ++ 4 :: code_len c) end.
    split.
    - cbn [app]. rewrite <- !app_assoc. cbn [app]. rewrite <- !app_assoc. cbn [app]. reflexivity.
    - rewrite len_cons, len_app, len_code_len, W3, len_app, len_cons, len_app, len_code_len, W2, len_cons, len_code_len, W1.
      reflexivity.
  Qed.

  Lemma read_tail buf off x y : off + len (x ++ y) <= len buf ->
    firstn (length y) (skipn (N.to_nat (off + len x)) (put_at buf off (x ++ y))) = y.
  Proof.
    intros H. rewrite <- put_at_app by exact H. apply read_put_at. rewrite len_put_at. rewrite len_app in H. lia.
  Qed.

  Lemma runs_sd d f : runs true d csr f -> runs true (3 + d) sd_body (fsd f).
  Proof.
    intros H. pose proof (similar_encap C cf crit cb pk subject md d f H) as HS.
    pose proof (runs_similar C _ _ _ _ _ HS (runs_encap C d _ f H)) as HR. fold ecsr in HS, HR.
    pose proof (locates_similar C _ _ _ _ HS (locates_encap C d _ f H)) as HL. fold csr in HS, HL.
    pose proof (locates_add C _ _ _ _ _ (pure_sd_head cf C sid) HL) as HL2.
    pose proof (runs_add C false true (3 + d) _ _ _ _
      (runs_weaken C _ 0 _ _ _ (pure_runs C _ _ (pure_sd_head cf C sid)) ltac:(lia)) HR) as HR2.
    clear HS HR HL.
    intros w Hs Hb. pose proof (HR2 w Hs Hb) as O. specialize (HL2 w). unfold sd_body. unfold wbind at 1.
    destruct (wadd (sd_head_enc cf C sid) ecsr w) as [r1 w1]. unfold outc in O; cbn [fst snd] in O.
    assert (EF : forall c, fseq (fpure (sd_head cf sid)) (fencap C f) c =
                 fbind f (fun bs => fbind (flift (rencap bs)) (fun e => fpure (sd_head cf sid ++ e))) c).
    { intros c. unfold fseq, fencap, fbind, fpure, flift. destruct (f c) as [[bs|?|?] c1]; reflexivity. }
    inversion O as [bs c1 w1' Hf K P Hk Eo Eb Es Ec|e c1 w1' Hf K Ec|x c1 w1' Hf K Ec|w1' K Hn]; subst w1'.
    2-4: unfold outc; cbn [fst snd].
    2: { subst r1. eapply OutErr; eauto. rewrite EF in Hf. revert Hf. unfold fsd, fbind, flift.
         destruct (f (cw_c w)) as [[bs|?|?] c2]; try (intros; congruence).
         destruct (rencap bs); intros Hf; try discriminate Hf; try exact Hf. }
    2: { subst r1. eapply OutCrash; eauto. rewrite EF in Hf. revert Hf. unfold fsd, fbind, flift.
         destruct (f (cw_c w)) as [[bs|?|?] c2]; try (intros; congruence).
         destruct (rencap bs); intros Hf; try discriminate Hf; try exact Hf. }
    2: { subst r1. apply OutFull; [exact K|]. intros bs c' E0.
         unfold fsd, fbind, flift in E0. destruct (f (cw_c w)) as [[cs|?|?] c1] eqn:Ef; try discriminate.
         destruct (rencap cs) as [e|?|?] eqn:Ee; try discriminate.
         specialize (Hn (sd_head cf sid ++ e) c1).
         rewrite EF in Hn. unfold fbind, flift, fpure in Hn. rewrite Ef, Ee in Hn. specialize (Hn eq_refl).
         unfold fsign in E0. destruct (cb _ _ c1) as [[g|?] c2]; try discriminate.
         apply (f_equal fst) in E0. cbn [fst] in E0. apply ok_inj in E0. rewrite <- E0.
         unfold fits in *. rewrite app_assoc, len_app. lia. }
    subst r1. specialize (Hk eq_refl). specialize (P Hk). specialize (HL2 _ _ Hs Hb eq_refl).
    rewrite EF in Hf. unfold fbind, flift, fpure in Hf.
    destruct (f (cw_c w)) as [[cs|?|?] c2] eqn:Ef; try discriminate.
    destruct (rencap cs) as [e|?|?] eqn:Ee; try discriminate.
    pose proof (f_equal snd Hf) as E2. cbn [snd] in E2. apply (f_equal fst) in Hf. cbn [fst] in Hf. apply ok_inj in Hf. subst bs c2.
    destruct (rencap_ok cs e Ee) as (h & Eh & Lh).
    assert (LB : len (cw_buf w1) = len (cw_buf w)) by (unfold len; rewrite (proj1 K); reflexivity).
    unfold wbind at 1. unfold get_csr at 1. rewrite HL2. cbn [fst snd].
    set (x := sd_head cf sid ++ h). assert (Ex : sd_head cf sid ++ e = x ++ cs) by (unfold x; rewrite Eh, app_assoc; reflexivity).
    rewrite Ex in *. assert (Lx : len x = len (sd_head cf sid) + 23) by (unfold x; rewrite len_app, Lh; reflexivity).
    rewrite <- Lx. unfold fits in Hk. rewrite len_app in Hk. unfold wbind at 1.
    rewrite (len_app x cs), (N.add_assoc (cw_off w)).
    rewrite (call_sign_ok C cb w1 (cw_off w + len x) cs false).
    2: lia.
    2: { rewrite P. apply read_tail. rewrite len_app. lia. }
    rewrite Ec. destruct (cb (SDBuffer cs) false c1) as [[g|er] c2] eqn:Ecb.
    2: { unfold outc. cbn [fst snd]. eapply OutErr with (c' := c2); [|exact K|reflexivity].
         unfold fsd, fbind, flift, fsign. rewrite Ef, Ee, Ecb. reflexivity. }
    set (w2 := mkCw (cw_buf w1) (cw_off w1) (cw_csr w1) (cw_back w1) (cw_saved w1) c2).
    pose proof (runs_sinfos cf C sid g w2) as O2.
    specialize (O2 ltac:(cbn [w2 cw_saved]; congruence) ltac:(cbn [w2 cw_back]; rewrite Eb; lia)).
    unfold wbind. destruct (seq_of _ w2) as [r3 w3]. unfold outc in O2. cbn [fst snd] in O2.
    assert (K2 : forall w', keeps w2 w' -> keeps w w').
    { intros w' Kw. eapply keeps_trans; [|exact K|]; [rewrite Eo; lia|]. destruct Kw as [Ka Kb]. split; [exact Ka|exact Kb]. }
    assert (FS : fsd f (cw_c w) = (Ok ((x ++ cs) ++ sinfos cf sid g), c2)).
    { unfold fsd, fbind, flift, fsign. rewrite Ef, Ee, Ecb. rewrite <- Ex, <- app_assoc. reflexivity. }
    assert (FT : forall n, fits w2 n <-> fits w (len x + len cs + n)).
    { intros n. unfold fits. cbn [w2 cw_off cw_buf]. rewrite LB, Eo, len_app. split; lia. }
    inversion O2 as [b3 c3 w3' Hf3 K3 P3 Hk3 Eo3 Eb3 Es3 Ec3|e3 c3 w3' Hf3 K3 Ec3|x3 c3 w3' Hf3 K3 Ec3|w3' K3 Hn3]; subst w3' r3.
    2,3: discriminate Hf3.
    - unfold wret, outc. cbn [fst snd]. unfold fpure in Hf3.
      pose proof (f_equal snd Hf3) as E2. cbn [snd] in E2. apply (f_equal fst) in Hf3. cbn [fst] in Hf3. apply ok_inj in Hf3.
      subst b3 c3. rewrite <- len_app, <- len_app. eapply OutDone with (c' := c2).
      + exact FS.
      + apply K2, K3.
      + intros Hx. unfold fits in Hx. rewrite len_app, len_app in Hx.
        rewrite P3 by (apply FT; unfold fits; lia). cbn [w2 cw_buf cw_off]. rewrite P, Eo.
        apply put_at_app. rewrite len_app, len_app. lia.
      + intros _. rewrite len_app, len_app. apply FT, Hk3. reflexivity.
      + rewrite Eo3. cbn [w2 cw_off]. rewrite Eo, !len_app. lia.
      + rewrite Eb3. exact Eb.
      + rewrite Es3. exact Es.
      + symmetry. exact E2.
    - unfold outc. cbn [fst snd]. apply OutFull; [apply K2, K3|]. intros b c' E0. rewrite FS in E0.
      apply (f_equal fst) in E0. cbn [fst] in E0. apply ok_inj in E0. subst b.
      specialize (Hn3 _ _ eq_refl). rewrite FT in Hn3. rewrite len_app, len_app. exact Hn3.
  Qed.

  Definition rcms (sd : bytes) : result bytes :=
    rwrap 0x30 (rapp (Ok (tlv code_len 6 oid_signed_data)) (rwrap 0xA0 (rwrap 0x30 (Ok sd)))).
  Definition fcms (f : gen C) : gen C := fbind (fsd f) (fun sd => flift (rcms sd)).

  Definition cms_n : W C N :=
    wrap3 0x30 (fun _ => wadd (encode_oid C oid_signed_data) (wrap3 0xA0 (fun _ => wrap3 0x30 (fun _ => sd_body)))).

  Lemma runs_cms_n d f : runs true d csr f -> runs true (6 + d) cms_n (fcms f).
  Proof.
    intros H. apply runs_sd in H. eapply runs_feq.
    2: { unfold cms_n. apply (runs_wrap3 C true (5 + d) 0x30 (fun _ => _)).
         eapply (runs_add C false true); [eapply runs_weaken; [apply (pure_runs C), pure_oid|lia]|].
         apply (runs_wrap3 C true (4 + d) 0xA0 (fun _ => _)). apply (runs_wrap3 C true (3 + d) 0x30 (fun _ => _)).
         exact H. }
    intros c. unfold fcms, rcms, rwrap, rapp, fwrap, fseq, fbind, fpure, flift.
    destruct (fsd f c) as [[sd|e|x] c']; try reflexivity. cbn [rbind].
    repeat match goal with |- context [if ?b then _ else _] => destruct b; cbn [rbind]; try reflexivity end.
  Qed.

  Definition cms_fin (n : N) : W C N :=
    wbind check_no_backtracks (fun _ => wbind check_not_truncated (fun _ => wret n)).

  Lemma seq_head (m : W C N) : seq_of [ encode_cms_version C sid; encode_tag_field T_SET;
        encode_size_field (get_hash_alg_id_size cf true); encode_hash_alg_id cf C; m ]
    = wadd (sd_head_enc cf C sid) m.
  Proof. reflexivity. Qed.

  Definition cms_tail (lo n : N) : W C N :=
    wbind start_backtrack (fun _ =>
    wbind (pop_backtrack (get_size_width n)) (fun _ => wbind (encode_size_field n) (fun _ =>
    wbind (pop_backtrack (get_size_width (1 + 3 + n))) (fun _ => wbind (encode_size_field (1 + 3 + n)) (fun _ =>
    wbind (pop_backtrack (get_size_width (lo + (1 + 3) + (1 + 3 + n)))) (fun _ =>
    wbind (encode_size_field (lo + (1 + 3) + (1 + 3 + n))) (fun _ =>
    wbind end_backtrack (fun _ => cms_fin (1 + 3 + (lo + (1 + 3) + (1 + 3 + n))))))))))).
  Lemma sd_body_bind (K : N -> W C N) w : wbind sd_body K w =
    wbind (wadd (sd_head_enc cf C sid) ecsr) (fun sd1 =>
    wbind get_csr (fun r =>
    wbind (call_sign cb (fst r) (snd r) false) (fun sg =>
    wbind (seq_of [ encode_tag_field T_SET; encode_size_field (get_signer_info_size cf sg sid true);
                    encode_signer_info cf C sg sid ]) (fun sd2 => K (sd1 + sd2))))) w.
  Proof.
    unfold sd_body, wbind. 
    destruct (wadd _ _ w) as [[a|?|?] w1]; try reflexivity. destruct (get_csr w1) as [[r|?|?] w2]; try reflexivity.
    destruct (call_sign cb (fst r) (snd r) false w2) as [[g|?|?] w3]; try reflexivity.
    destruct (seq_of _ w3) as [[b|?|?] w4]; reflexivity.
  Qed.

  Lemma similar_cms d f : runs true d csr f ->
    similar (6 + d) (wbind cms_n cms_fin) (encode_cms cf crit C cb pk subject md sid).
  Proof.
    intros H w Hs Hb. apply runs_sd in H. unfold cms_n, wrap3, encode_cms, wadd at 1.
    fold ecsr. rewrite seq_head.
    unfold T_SEQUENCE, size_tag_offset. change (N.lor CONTEXT_SPECIFIC CONSTRUCTED) with 0xA0.
    change (@encode_tag_field C 0x30) with (@encode_byte C 0x30). change (@encode_tag_field C 0xA0) with (@encode_byte C 0xA0).
    (* the common prefix *)
    rewrite !wbind_assoc.
    destruct (pure_byte C 0x30 w) as (b0 & E0 & L0 & _). rewrite !(wbind_ok _ _ _ _ _ _ E0). clear E0.
    rewrite !wbind_assoc.
    match goal with |- context [mkCw b0 ?o ?r ?k ?s ?c] =>
      pose proof (push_ok C (mkCw b0 o r k s c) ltac:(cbn [cw_back]; lia)) as E0 end.
    rewrite !(wbind_ok _ _ _ _ _ _ E0). clear E0. cbn [cw_buf cw_off cw_csr cw_back cw_saved cw_c].
    rewrite !wbind_assoc.
    match goal with |- context [mkCw b0 ?o ?r ?k ?s ?c] =>
      destruct (pure_oid C oid_signed_data (mkCw b0 o r k s c)) as (b1 & E0 & L1 & _) end.
    rewrite !(wbind_ok _ _ _ _ _ _ E0). clear E0. cbn [cw_buf cw_off cw_csr cw_back cw_saved cw_c] in *.
    rewrite !wbind_assoc.
    match goal with |- context [mkCw b1 ?o ?r ?k ?s ?c] =>
      destruct (pure_byte C 0xA0 (mkCw b1 o r k s c)) as (b2 & E0 & L2 & _) end.
    rewrite !(wbind_ok _ _ _ _ _ _ E0). clear E0. cbn [cw_buf cw_off cw_csr cw_back cw_saved cw_c] in *.
    rewrite !wbind_assoc.
    match goal with |- context [mkCw b2 ?o ?r ?k ?s ?c] =>
      pose proof (push_ok C (mkCw b2 o r k s c) ltac:(cbn [cw_back length]; lia)) as E0 end.
    rewrite !(wbind_ok _ _ _ _ _ _ E0). clear E0. cbn [cw_buf cw_off cw_csr cw_back cw_saved cw_c].
    rewrite !wbind_assoc.
    match goal with |- context [mkCw b2 ?o ?r ?k ?s ?c] =>
      destruct (pure_byte C 0x30 (mkCw b2 o r k s c)) as (b3 & E0 & L3 & _) end.
    rewrite !(wbind_ok _ _ _ _ _ _ E0). clear E0. cbn [cw_buf cw_off cw_csr cw_back cw_saved cw_c] in *.
    rewrite !wbind_assoc.
    match goal with |- context [mkCw b3 ?o ?r ?k ?s ?c] =>
      pose proof (push_ok C (mkCw b3 o r k s c) ltac:(cbn [cw_back length]; lia)) as E0 end.
    rewrite !(wbind_ok _ _ _ _ _ _ E0). clear E0. cbn [cw_buf cw_off cw_csr cw_back cw_saved cw_c].
    change (len [48]) with 1. change (len [160]) with 1.
    set (o1 := cw_off w + 1). set (lo := len (tlv code_len 6 oid_signed_data)). set (o2 := o1 + 3 + lo + 1).
    set (o3 := o2 + 3 + 1).
    match goal with |- simres (wbind _ _ ?x) _ => set (w3 := x) end.
    assert (HB : (length (cw_back w3) + (3 + d) <= max_backtracks)%nat) by (cbn [w3 cw_back length]; lia).
    pose proof (H w3 Hs HB) as O. unfold outc in O.
    match goal with |- simres _ ?y => replace y with (wbind sd_body (cms_tail lo) w3)
      by (rewrite sd_body_bind; reflexivity) end.
    rewrite wbind_assoc.
    destruct (sd_body w3) as [[n|e|x] w4] eqn:Esd.
    2,3: unfold wbind at 1; rewrite Esd; unfold wbind at 1; rewrite Esd; apply simres_refl.
    rewrite !(wbind_ok _ _ _ _ _ _ Esd). cbn [fst snd] in O.
    inversion O as [bs c' w'' Hf K P Hk Eo Eb2 Es Ec E1 E2| | |]; subst w'' n. specialize (Hk eq_refl).
    unfold fits in Hk. cbn [w3 cw_off cw_buf] in Hk.
    assert (LB : len (cw_buf w4) = len b3) by (unfold len; rewrite (proj1 K); reflexivity).
    assert (S4 : cw_saved w4 = None) by (rewrite Es; exact Hs).
    assert (B4 : cw_back w4 = (o3, o3 + 3) :: (o2, o2 + 3) :: (o1, o1 + 3) :: cw_back w)
      by (rewrite Eb2; reflexivity).
    unfold cms_tail. rewrite (wbind_ok _ _ _ _ _ _ (start_ok C w4 S4)).
    rewrite wbind_assoc.
    rewrite (backfill_fit C (len bs) _ w4 o3 _ S4 B4) by lia.
    match goal with |- context [wbind (pop_backtrack _) _ ?x] =>
      erewrite (refill_step C (len bs) _ x (cw_off w4) o3 _ eq_refl B4) by (cbn [cw_buf]; lia) end.
    destruct (N.eqb_spec (get_size_width (len bs)) 3) as [W1|W1]; [|repeat split; discriminate].
    unfold wbind at 1, wret at 1. rewrite wbind_assoc.
    cbn [cw_buf cw_off cw_csr cw_back cw_saved cw_c].
    erewrite backfill_fit by (cbn [cw_saved cw_back cw_buf]; rewrite ?len_put_at; first [reflexivity|lia]).
    erewrite refill_step by (cbn [cw_saved cw_back cw_buf]; rewrite ?len_put_at; first [reflexivity|lia]).
    destruct (N.eqb_spec (get_size_width (1 + 3 + len bs)) 3) as [W2|W2]; [|repeat split; discriminate].
    unfold wbind at 1 2, wret at 1 2.
    cbn [cw_buf cw_off cw_csr cw_back cw_saved cw_c]. rewrite wbind_assoc.
    replace (lo + (1 + 3) + (1 + 3 + len bs)) with (lo + (1 + 3 + (1 + 3 + len bs))) by lia.
    erewrite backfill_fit by (cbn [cw_saved cw_back cw_buf]; rewrite ?len_put_at; first [reflexivity|lia]).
    erewrite refill_step by (cbn [cw_saved cw_back cw_buf]; rewrite ?len_put_at; first [reflexivity|lia]).
    destruct (N.eqb_spec (get_size_width (lo + (1 + 3 + (1 + 3 + len bs)))) 3) as [W3|W3]; [|repeat split; discriminate].
    cbn [cw_buf cw_off cw_csr cw_back cw_saved cw_c]. unfold wbind at 1, wret at 1.
    unfold wbind at 1, end_backtrack at 1. cbn [cw_buf cw_off cw_csr cw_back cw_saved cw_c].
    unfold cms_fin. apply simres_refl.
  Qed.

  Lemma runs_cms d f w : runs true d csr f -> (6 + d <= max_backtracks)%nat ->
    cw_saved w = None -> cw_back w = [] ->
    outc C true (fcms f) w (encode_cms cf crit C cb pk subject md sid w).
  Proof.
    intros H Hd Hs Hb.
    assert (HB : (length (cw_back w) + (6 + d) <= max_backtracks)%nat) by (rewrite Hb; exact Hd).
    pose proof (runs_cms_n d f H w Hs HB) as O.
    assert (O2 : outc C true (fcms f) w (wbind cms_n cms_fin w)).
    { unfold wbind at 1. destruct (cms_n w) as [r w1]. unfold outc in *. cbn [fst snd] in O.
      inversion O as [bs c1 w1' Hf K P Hk Eo Eb Es Ec|e c1 w1' Hf K Ec|x c1 w1' Hf K Ec|w1' K Hn]; subst w1' r; cbn [fst snd].
      2-4: assumption.
      specialize (Hk eq_refl).
      assert (LB : len (cw_buf w1) = len (cw_buf w)) by (unfold len; rewrite (proj1 K); reflexivity).
      unfold cms_fin, wbind, check_no_backtracks. rewrite Eb, Hb. unfold check_not_truncated.
      unfold fits in Hk. destruct (N.ltb_spec (len (cw_buf w1)) (cw_off w1)); [lia|]. exact O. }
    destruct (similar_cms d f H w Hs HB) as (A & B & D & F). unfold outc in *.
    destruct (wbind cms_n cms_fin w) as [r1 w1], (encode_cms cf crit C cb pk subject md sid w) as [r2 w2]. cbn [fst snd] in *.
    subst r2.
    destruct O2 as [a c1 w1 Hf K P Hk Eo Eb Es Ec|e c1 w1 Hf K Ec|x c1 w1 Hf K Ec|w1 K Hn].
    - rewrite <- (F _ eq_refl). eapply OutDone; eauto.
    - eapply OutErr; eauto; [|congruence]. destruct K. split; rewrite <- B; assumption.
    - eapply OutCrash; eauto; [|congruence]. destruct K. split; rewrite <- B; assumption.
    - apply OutFull; auto. destruct K. split; rewrite <- B; assumption.
  Qed.
End Cms.
