(** Props_X509.v -- certificates and certificate signing requests: C27 to C31, C40,
    C43, C44, and C21, C23 for a DPE that uses the modelled certificate writer. *)
From Verif Require Import Base Errors Types StateOps Env Wire Instance Commands X509 X509Cert RespBuf Response Lib Der DerProofs X509Run X509Spec
  Spec Exec Effects Forest History WireSpec Codec Steps Reach Toy Contract Responses Execute Walk Measure X509Out X509Proper X509Gen X509Read X509ReadOk
  X509Made X509Total X509Sane X509Cmd X509Odd X509Any X509Facts KeyProofs ToyX509 Props_Codec Props_Avail.
Open Scope N_scope.
Open Scope dpe_scope.

(** ** Writing at the current position *)

(** [w'] is [w] with [bs] appended at its position; bytes that do not fit the buffer
    are counted but not stored. *)
Definition appended {C} (w : cw C) (bs : bytes) (w' : cw C) : Prop :=
  cw_off w' = cw_off w + len bs /\ cw_c w' = cw_c w /\
  length (cw_buf w') = length (cw_buf w) /\
  firstn (N.to_nat (cw_off w)) (cw_buf w') = firstn (N.to_nat (cw_off w)) (cw_buf w) /\
  (cw_off w + len bs <= len (cw_buf w) ->
     cw_buf w' = firstn (N.to_nat (cw_off w)) (cw_buf w) ++ bs ++
                 skipn (N.to_nat (cw_off w) + length bs) (cw_buf w)).
Lemma pure_appended {C} (m : W C N) bs (w : cw C) : pure m bs -> exists w', m w = (Ok (len bs), w') /\ appended w bs w'.
Proof.
  intros H. destruct (H w) as (buf & E & L & Fit & K). eexists. split; [exact E|]. unfold appended. cbn [cw_off cw_c cw_buf].
  split; [reflexivity|]. split; [reflexivity|]. split; [exact L|]. split; [apply K; lia|]. intros F. rewrite (Fit F).
  unfold put_at. destruct (N.leb_spec (cw_off w + len bs) (len (cw_buf w))); [reflexivity|lia].
Qed.

(** ** C27: INTEGERs are minimal and keep their value *)

(** For every non-empty byte string (whose length fits the length field) the encoder
    emits the tag of INTEGER, the length octets of the contents and as contents the
    only shortest two's complement form of the unsigned big-endian value; the size
    predicted beforehand is the number of octets emitted. *)
Theorem C27_integers :
  forall C (l : bytes) (w : cw C), all_bytes l -> l <> [] -> len l + 1 < 2 ^ 32 ->
    exists lo ds w',
      int_octets (Z.of_N (be_val l)) ds /\ length_octets (len ds) lo /\
      (forall ds', int_octets (Z.of_N (be_val l)) ds' -> ds' = ds) /\
      get_integer_bytes_size l true = len (0x02 :: lo ++ ds) /\
      encode_integer_bytes C l true w = (Ok (len (0x02 :: lo ++ ds)), w') /\ appended w (0x02 :: lo ++ ds) w'.
Proof.
  intros C l w HB HN HL. destruct (pure_appended _ _ w (pure_integer_bytes C l)) as (w' & E & A).
  pose proof (code_int_correct l HB HN) as EC. exists (code_len (len (code_int l))), (code_int l), w'.
  pose proof (der_uint_correct (be_val l)) as DU.
  assert (LI : len (code_int l) < 2 ^ 32).
  { rewrite len_code_int. unfold get_integer_bytes_size, get_structure_size. pose proof (int_size_bound l (len l) ltac:(lia)). lia. }
  split; [rewrite EC; exact DU|]. split; [apply code_len_octets, LI|]. split.
  { intros ds' H. rewrite EC. eapply int_octets_unique; eassumption. }
  unfold tlv in E, A. change (N.of_nat (length (code_int l))) with (len (code_int l)) in *.
  split; [|split; [exact E|exact A]].
  rewrite len_cons, len_app, len_code_len, len_code_int. unfold get_integer_bytes_size, get_structure_size. lia.
Qed.
Print Assumptions C27_integers.

(** An empty byte string -- only possible for a serial number supplied by the
    platform -- is emitted as an INTEGER without contents, which is not an INTEGER. *)
Theorem C27_empty_refuted :
  exists w w' : cw unit, encode_integer_bytes unit [] true w = (Ok 2, w') /\ cw_buf w' = [0x02; 0] /\
    forall v, ~ int_octets v [].
Proof.
  exists (mkCw [9; 9] 0 None [] None tt), (mkCw [2; 0] 2 None [] None tt).
  split; [reflexivity|]. split; [reflexivity|]. intros v (_ & _ & H). exact H.
Qed.
Print Assumptions C27_empty_refuted.
(** Non-vacuity: leading zeros are dropped and a sign octet is added. *)
Example C27_cases :
  encode_integer_bytes unit [0; 0; 200; 1] true (mkCw (repeat 9 7) 1 None [] None tt)
    = (Ok 5, mkCw [9; 2; 3; 0; 200; 1; 9] 6 None [] None tt) /\
  int_octets 51201 [0; 200; 1].
Proof. split; [reflexivity|]. split; [repeat constructor|]. split; [reflexivity|]. cbn. lia. Qed.

(** ** C28: length fields are correct and minimal *)

Lemma length_value m n lo : length_octets m lo -> length_octets n lo -> m = n.
Proof.
  intros A B. destruct A as [m L|m ds G V K].
  - remember [m] as lo eqn:E. destruct B as [n L'|n ds' G' V' K'].
    + congruence.
    + apply (f_equal (hd 0)) in E. cbn [hd] in E. lia.
  - remember ((128 + N.of_nat (length ds)) :: ds) as lo eqn:E. destruct B as [n L'|n ds' G' V' K'].
    + apply (f_equal (hd 0)) in E. cbn [hd] in E. lia.
    + apply (f_equal (@tl N)) in E. cbn [tl] in E. subst ds'. destruct V as (_ & <- & _), V' as (_ & <- & _). reflexivity.
Qed.

(** Every size below 2^32 is emitted as its DER length octets, which determine it, in
    the predicted number of octets. *)
Theorem C28_lengths :
  forall C n (w : cw C), n < 2 ^ 32 ->
    exists lo w',
      length_octets n lo /\ (forall m, length_octets m lo -> m = n) /\ len lo = get_size_width n /\
      encode_size_field n w = (Ok (len lo), w') /\ appended w lo w' /\
      get_structure_size n true = 1 + len lo + n.
Proof.
  intros C n w H. destruct (pure_appended _ _ w (pure_size C n)) as (w' & E & A). exists (code_len n), w'.
  pose proof (code_len_octets n H) as O. split; [exact O|]. split.
  - intros m Hm. exact (length_value _ _ _ Hm O).
  - split; [apply len_code_len|]. split; [exact E|]. split; [exact A|]. unfold get_structure_size. rewrite len_code_len. reflexivity.
Qed.
Print Assumptions C28_lengths.

(** A larger size is not reported as an error: it is truncated to 32 bits. *)
Theorem C28_huge_refuted :
  exists n (w w' : cw unit), encode_size_field n w = (Ok 5, w') /\
    ~ length_octets n (cw_buf w') /\ length_octets 130 [0x81; 130] /\ cw_buf w' = [0x84; 0; 0; 0; 130] /\ n = 2 ^ 32 + 130.
Proof.
  exists (2 ^ 32 + 130), (mkCw (repeat 0 5) 0 None [] None tt), (mkCw [0x84; 0; 0; 0; 130] 5 None [] None tt).
  split; [reflexivity|]. split.
  - intros H. inversion H as [? ?|? ? ? (_ & V & _)]; subst. discriminate V.
  - split; [|split; reflexivity]. apply (LenLong 130 [130]); [lia| |cbn; lia]. split; [repeat constructor|]. split; [reflexivity|discriminate].
Qed.
Print Assumptions C28_huge_refuted.

(** ** C30: certificates are never silently truncated *)

(** A certificate or request of [size] bytes that was produced is stored completely
    behind offset [off]; with any other buffer it is stored in the same way if it
    fits, and otherwise the call fails. *)
Theorem C30_sizes :
  forall cf C P (co : crypto_ops C) (po : platform_ops P) k a off s c p out r c' p' out',
    x509_gen cf C P co po k a off s c p out = (Ok r, c', p', out') ->
    exists bs, cr_size r = len bs /\ out' = firstn off out ++ bs ++ skipn (off + length bs) out /\
      (off + length bs <= length out)%nat /\
      forall out2,
        ((off + length bs <= length out2)%nat ->
           x509_gen cf C P co po k a off s c p out2
           = (Ok r, c', p', firstn off out2 ++ bs ++ skipn (off + length bs) out2)) /\
        ((length out2 < off + length bs)%nat ->
           exists c2 p2 o2, x509_gen cf C P co po k a off s c p out2 = (Err (InternalError CertSizeOverflow), c2, p2, o2)).
Proof.
  intros cf C P co po k a off s c p out r c' p' out' H. unfold x509_gen in *.
  destruct (create_cert cf C P co po k a off (mkWorld s c p out)) as [r0 w1] eqn:E0. inversion H; subst. clear H.
  destruct (create_cert_sizes cf co po _ _ _ _ _ _ E0) as (bs & H1 & H2 & H3 & H4). cbn [w_out] in *.
  exists bs. split; [exact H1|]. split; [exact H2|]. split; [exact H3|]. intros out2. destruct (H4 out2) as [A B]. split.
  - intros L. specialize (A L). unfold set_out in A. cbn [w_st w_c w_p w_out] in A. rewrite A. reflexivity.
  - intros L. specialize (B L). unfold set_out in B. cbn [w_st w_c w_p w_out] in B.
    destruct (create_cert cf C P co po k a off (mkWorld s c p out2)) as [r2 w2]. cbn [fst] in B. subst r2. eauto.
Qed.
Print Assumptions C30_sizes.

(** Whatever happens, the bytes before the offset and the size of the buffer stay. *)
Theorem C30_frame :
  forall cf C P (co : crypto_ops C) (po : platform_ops P) k a off s c p out r c' p' out',
    x509_gen cf C P co po k a off s c p out = (r, c', p', out') ->
    length out' = length out /\ firstn off out' = firstn off out.
Proof.
  intros cf C P co po k a off s c p out r c' p' out' H. unfold x509_gen in *.
  destruct (create_cert cf C P co po k a off (mkWorld s c p out)) as [r0 w1] eqn:E0. inversion H; subst. clear H.
  destruct (create_cert_frame cf co po _ _ _ _ _ _ E0) as (_ & L & F). split; [exact L|exact F].
Qed.
Print Assumptions C30_frame.

(** ** C40: hexadecimal names *)

(** "0123456789ABCDEF" *)
Definition hex_digits : bytes := [48; 49; 50; 51; 52; 53; 54; 55; 56; 57; 65; 66; 67; 68; 69; 70].
Definition upper_hex (l : bytes) : bytes :=
  concat (map (fun b => [nth (N.to_nat (b / 16)) hex_digits 0; nth (N.to_nat (b mod 16)) hex_digits 0]) l).

Lemma hex_char_spec n : n < 16 -> hex_char n = nth (N.to_nat n) hex_digits 0.
Proof.
  intros H. unfold hex_char. destruct (N.ltb_spec n 10).
  - assert (K : In n (map N.of_nat (seq 0 10))) by (rewrite <- (N2Nat.id n); apply in_map, in_seq; lia).
    cbn [seq map In N.of_nat Pos.of_succ_nat Pos.succ] in K. repeat (destruct K as [<-|K]; [reflexivity|]). destruct K.
  - assert (K : In n (map N.of_nat (seq 10 6))) by (rewrite <- (N2Nat.id n); apply in_map, in_seq; lia).
    cbn [seq map In N.of_nat Pos.of_succ_nat Pos.succ] in K. repeat (destruct K as [<-|K]; [reflexivity|]). destruct K.
Qed.
Lemma hex_of_spec l : all_bytes l -> hex_of l = upper_hex l.
Proof.
  induction 1 as [|b l Hb HL IH]; [reflexivity|]. unfold is_byte in Hb. unfold hex_of, upper_hex in *. cbn [flat_map map concat].
  rewrite IH, !hex_char_spec by (first [apply N.mod_lt; lia|apply N.div_lt_upper_bound; lia]). reflexivity.
Qed.
Lemma hex_char_inj a b : a < 16 -> b < 16 -> hex_char a = hex_char b -> a = b.
Proof. unfold hex_char. intros Ha Hb. destruct (N.ltb_spec a 10), (N.ltb_spec b 10); lia. Qed.
Lemma upper_hex_inj n : forall a b, all_bytes a -> all_bytes b -> (n <= length a)%nat -> (n <= length b)%nat ->
  firstn (n * 2) (hex_of a) = firstn (n * 2) (hex_of b) -> firstn n a = firstn n b.
Proof.
  induction n as [|n IH]; intros a b HA HB LA LB H; [reflexivity|].
  destruct a as [|x a]; [cbn in LA; lia|]. destruct b as [|y b]; [cbn in LB; lia|].
  inversion HA as [|? ? Hx HA']; inversion HB as [|? ? Hy HB']; subst. unfold is_byte in Hx, Hy.
  cbn [Nat.mul Nat.add hex_of flat_map app firstn] in H. fold (hex_of a) (hex_of b) in H. injection H as E1 E2 E3.
  apply hex_char_inj in E1; [|apply N.div_lt_upper_bound; lia..]. apply hex_char_inj in E2; [|apply N.mod_lt; lia..].
  cbn [firstn]. f_equal.
  - rewrite (N.div_mod x 16), (N.div_mod y 16) by lia. rewrite E1, E2. reflexivity.
  - apply IH; cbn [length] in *; (assumption || lia).
Qed.

(** Writing a digest in hexadecimal stores two upper-case digits per byte and leaves
    the rest of the destination alone, or fails if the destination is too small. *)
Theorem C40_write_hex :
  forall d dst, all_bytes (digest_bytes d) ->
    write_hex_str d dst =
      if (length (digest_bytes d) * 2 <=? length dst)%nat
      then Ok (upper_hex (digest_bytes d) ++ skipn (length (digest_bytes d) * 2) dst)
      else Err (CryptoErr CESize).
Proof.
  intros d dst H. unfold write_hex_str. destruct (Nat.ltb_spec (length dst) (length (digest_bytes d) * 2)).
  - destruct (Nat.leb_spec (length (digest_bytes d) * 2) (length dst)); [lia|reflexivity].
  - destruct (Nat.leb_spec (length (digest_bytes d) * 2) (length dst)); [|lia]. rewrite hex_of_spec by exact H. reflexivity.
Qed.
Print Assumptions C40_write_hex.
(** The subject name of every certificate is a fixed common name and the first 64
    digits of the digest of the certified key. *)
Theorem C40_subject :
  forall C P (co : crypto_ops C) k pk (w : world C P) nm w',
    get_subject_name C P co k pk w = (Ok nm, w') ->
    exists dg, hash_pubkey C P co pk w = (Ok dg, w') /\
      ds_bytes (nm_serial nm) = firstn 64 (upper_hex (digest_bytes dg)) /\ length (ds_bytes (nm_serial nm)) = 64%nat.
Proof.
  intros C P co k pk w nm w' H. apply subject_spec in H as (dg & w1 & H & -> & ->). exists dg. split; [exact H|].
  cbn [nm_serial ds_bytes]. rewrite subject_length. rewrite hex_of_spec by apply digest_bytes_bytes. split; reflexivity.
Qed.
Print Assumptions C40_subject.
(** Two keys share a serial number only if the first 32 bytes of their digests
    agree. *)
Theorem C40_injective :
  forall a b, all_bytes a -> all_bytes b -> (32 <= length a)%nat -> (32 <= length b)%nat ->
    firstn 64 (upper_hex a) = firstn 64 (upper_hex b) -> firstn 32 a = firstn 32 b.
Proof.
  intros a b HA HB LA LB H. rewrite <- !hex_of_spec in H by assumption. exact (upper_hex_inj 32 a b HA HB LA LB H).
Qed.
Print Assumptions C40_injective.
Example C40_case : upper_hex [0x9F; 0x00; 0xA1] = [57; 70; 48; 48; 65; 49]. (* "9F00A1" *)
Proof. reflexivity. Qed.

(** ** C29: generated certificates and requests are well-formed DER *)

(** The decoder used below accepts exactly the DER encodings. *)
Theorem C29_decoder :
  (forall b t, all_bytes b -> decode b = Some t -> b = enc t /\ proper t) /\
  (forall t, proper t -> small t -> decode (enc t) = Some (flat t) /\ enc (flat t) = enc t).
Proof.
  split.
  - intros b t HB H. unfold decode in H. destruct (parse (S (length b)) b) as [[t' r]|] eqn:E; [|discriminate].
    destruct r; [|discriminate]. injection H as ->. destruct (parse_sound _ _ _ _ HB E) as (E1 & PR & _).
    rewrite app_nil_r in E1. auto.
  - intros t HP HS. split; [apply decode_enc; assumption|apply enc_flat].
Qed.
Print Assumptions C29_decoder.

(** If the SVNs on the addressed chain are even (their encodings are on average as long
    as the root's, for example all of one length), the certificate in the response is
    one DER value: its signed part, the algorithm of the profile,
    and the alias key's signature over exactly the signed part.  The size field in
    front of it is its length, and it lies within the buffer. *)
Theorem C29_certificates :
  forall cf C P (co : crypto_ops C) (po : platform_ops P) cmd loc w n w' h i cts,
    config_ok cf -> keys_fit cf co -> issuer_der po -> wf cf (w_st w) -> command_wf cf cmd ->
    exec_command cf C P co po (x509_gen cf C P co po) cmd loc w = (Ok n, w') ->
    asks_certificate cmd -> presents cmd h ->
    first_slot (names (w_st w) h loc) i -> lineage (w_st w) i cts -> even_svns cts ->
    let b := output cmd n (w_out w') in
    N.to_nat n = (output_start cmd + length b)%nat /\ (N.to_nat n <= length (w_out w'))%nat /\
    slice (w_out w') (output_start cmd - 4) 4 = le_bytes 4 (len b) /\
    exists tbs g c c', let t := Cons 0x30 [tbs; flat (alg_id (sig_alg_oid (prof cf))); flat (signature_bits g)] in
      decode b = Some t /\ b = enc t /\ co_sign_with_alias co (SDBuffer (enc tbs)) c = (inl g, c').
Proof.
  intros cf C P co po cmd loc w n w' h i cts Hcf HK HI W HC H HA HP HF HL HE b.
  destruct (certificate_command cf Hcf co po _ _ _ _ _ _ W HC H HA HP)
    as (k & a & cr & w0 & w1 & Hc & Hk & _ & Hh & Hl & _ & _ & Hu & Hs & Ho & Hn & Hb & Hz & _).
  pose proof (exec_length cf Hcf co po _ _ _ _ _ W HC H) as LW.
  rewrite <- Hh, <- Hl, <- Hs in HF. rewrite <- Hs in HL, W.
  destruct (certificate_read cf Hcf co po _ _ _ _ _ _ _ _ Hc Hk W Hu HK HI HF HL HE) as (E1 & (tbs & g & c & E2 & E3 & E4) & _).
  pose proof (create_cert_sizes cf co po _ _ _ _ _ _ Hc) as (bs & B1 & _ & B3 & _). rewrite Ho in B3.
  fold b in Hb. rewrite <- Hb in *. rewrite <- E1 in *.
  unfold len in *. split; [lia|]. split; [rewrite LW; lia|]. split; [exact Hz|]. exists tbs, g, c, (w_c w1). auto.
Qed.
Print Assumptions C29_certificates.

(** The same for a request: a CMS message that contains a certification request,
    both DER values.  The request is signed with the derived key whose derivation the
    back end performed for the measurements of the addressed context, and the alias
    key's signature in the message covers exactly the request. *)
Theorem C29_requests :
  forall cf C P (co : crypto_ops C) (po : platform_ops P) cmd loc w n w' h i cts,
    config_ok cf -> keys_fit cf co -> signer_der po -> wf cf (w_st w) -> command_wf cf cmd ->
    exec_command cf C P co po (x509_gen cf C P co po) cmd loc w = (Ok n, w') ->
    asks_request cmd -> presents cmd h ->
    first_slot (names (w_st w) h loc) i -> lineage (w_st w) i cts -> even_svns cts ->
    let b := output cmd n (w_out w') in
    N.to_nat n = (output_start cmd + length b)%nat /\ (N.to_nat n <= length (w_out w'))%nat /\
    slice (w_out w') (output_start cmd - 4) 4 = le_bytes 4 (len b) /\
    exists m csr info g1 g2 sid, let t := Cons 0x30 [info; flat (alg_id (sig_alg_oid (prof cf))); flat (signature_bits g1)] in
      decode b = Some m /\ b = enc m /\ read_content b = Some csr /\ decode csr = Some t /\ csr = enc t /\
      read_signer (prof cf) b = Some (sid, flat (signature_octets g2)) /\
      (exists c c', co_signer_sign co (SDBuffer (enc info)) c = (inl g1, c')) /\
      (exists c c', co_sign_with_alias co (SDBuffer csr) c = (inl g2, c')).
Proof.
  intros cf C P co po cmd loc w n w' h i cts Hcf HK HI W HC H HA HP HF HL HE b.
  destruct (request_command cf co po _ _ _ _ _ _ W HC H HA HP)
    as (a & cr & w1 & Hc & Hh & Hl & _ & _ & Hu & _ & _ & _ & Hn & Hb & Hz & _).
  pose proof (exec_length cf Hcf co po _ _ _ _ _ W HC H) as LW.
  rewrite <- Hh, <- Hl in HF.
  destruct (request_read cf Hcf co po _ _ _ _ _ _ _ _ Hc eq_refl W Hu HK HI HF HL HE)
    as (E1 & (csr & info & d & g1 & g2 & c1 & c2 & m & E2 & E3 & E4 & E5 & E6 & _ & E8 & E9 & sid & E10 & _) & _).
  pose proof (create_cert_sizes cf co po _ _ _ _ _ _ Hc) as (bs & B1 & _ & B3 & _).
  fold b in Hb. rewrite <- Hb in *. rewrite <- E1 in *.
  unfold len in *. split; [lia|]. split; [rewrite LW; lia|]. split; [exact Hz|]. exists m, csr, info, g1, g2, sid.
  repeat (split; [assumption|]). split; [|eauto].
  unfold sign_with_derived, cseq in E8. destruct (co_derive_cdi co _ _ _) as [[u|e] c3]; [|discriminate].
  destruct (co_derive_key_pair co _ _ _) as [[u2|e] c4]; [|discriminate]. eauto.
Qed.
Print Assumptions C29_requests.

(** Whatever the SVNs, only the extensions can be malformed: the certificate consists
    of its signed part, the profile's algorithm and the alias key's signature over exactly the
    signed part, which has the version 3, the algorithm, three proper fields (issuer,
    validity and subject), the certified key and then the extensions ([exts], any
    bytes).  The size field in front is its length. *)
Theorem C29_outside :
  forall cf C P (co : crypto_ops C) (po : platform_ops P) cmd loc w n w' h i cts,
    config_ok cf -> keys_fit cf co -> issuer_der po -> wf cf (w_st w) -> command_wf cf cmd ->
    exec_command cf C P co po (x509_gen cf C P co po) cmd loc w = (Ok n, w') ->
    asks_certificate cmd -> presents cmd h ->
    first_slot (names (w_st w) h loc) i -> lineage (w_st w) i cts ->
    let b := output cmd n (w_out w') in
    N.to_nat n = (output_start cmd + length b)%nat /\ (N.to_nat n <= length (w_out w'))%nat /\
    slice (w_out w') (output_start cmd - 4) 4 = le_bytes 4 (len b) /\
    exists serial issuer validity subject pk exts g c c',
      let tbs := SEQUENCE [ CTX 0 [INTEGER 2]; INTEGER serial; alg_id (sig_alg_oid (prof cf)); issuer; validity; subject;
                            subject_public_key_info pk; Opaque exts ] in
      b = enc (SEQUENCE [tbs; alg_id (sig_alg_oid (prof cf)); signature_bits g]) /\
      Forall proper [issuer; validity; subject] /\ co_sign_with_alias co (SDBuffer (enc tbs)) c = (inl g, c') /\
      (exports cmd = false -> slice (w_out w') 28 (output_start cmd - 32) = key_octets (prof cf) pk).
Proof.
  intros cf C P co po cmd loc w n w' h i cts Hcf HK HI W HC H HA HP HF HL b.
  destruct (certificate_command cf Hcf co po _ _ _ _ _ _ W HC H HA HP)
    as (k & a & cr & w0 & w1 & Hc & Hk & _ & Hh & Hl & _ & _ & Hu & Hs & Ho & Hn & Hb & Hz & Hpk).
  pose proof (exec_length cf Hcf co po _ _ _ _ _ W HC H) as LW.
  rewrite <- Hh, <- Hl, <- Hs in HF. rewrite <- Hs in HL, W.
  destruct (certificate_any cf Hcf co po _ _ _ _ _ _ _ _ Hc Hk W HK HI HF HL)
    as (serial & idn & v & name & exts & g & c & E1 & E2 & E3 & E4).
  pose proof (create_cert_sizes cf co po _ _ _ _ _ _ Hc) as (bs & B1 & _ & B3 & _). rewrite Ho in B3.
  fold b in Hb. rewrite <- Hb in *. rewrite <- E1 in *.
  unfold len in *. split; [lia|]. split; [rewrite LW; lia|]. split; [exact Hz|].
  exists serial, idn, v, name, (cr_pubkey cr), exts, g, c, (w_c w1). cbv zeta. split; [exact E2|]. split; [exact E3|]. split; [exact E4|].
  intros X. rewrite X in Hpk. exact Hpk.
Qed.
Print Assumptions C29_outside.

(** ** C31: the output reports every measurement of the chain *)

(** One entry per context from the root to the addressed context, with its SVN,
    current measurement, locality, type and -- if the DPE supports recursion (bit 30)
    and the output is not for an exported CDI -- its cumulative measurement; the
    extension is critical exactly if the DPE is configured so (bit 15). *)
Theorem C31_certificates :
  forall cf C P (co : crypto_ops C) (po : platform_ops P) cmd loc w n w' h i cts,
    config_ok cf -> keys_fit cf co -> issuer_der po -> wf cf (w_st w) -> command_wf cf cmd ->
    exec_command cf C P co po (x509_gen cf C P co po) cmd loc w = (Ok n, w') ->
    asks_certificate cmd -> presents cmd h ->
    first_slot (names (w_st w) h loc) i -> lineage (w_st w) i cts -> even_svns cts ->
    read_certificate (prof cf) (output cmd n (w_out w'))
    = Some (N.testbit (st_flags (w_st w)) 15,
            map (reported (if exports cmd then false else N.testbit (st_support (w_st w)) 30)) (rev cts)).
Proof.
  intros cf C P co po cmd loc w n w' h i cts Hcf HK HI W HC H HA HP HF HL HE.
  destruct (certificate_command cf Hcf co po _ _ _ _ _ _ W HC H HA HP)
    as (k & a & cr & w0 & w1 & Hc & Hk & Hx & Hh & Hl & Hcr & _ & Hu & Hs & Ho & Hn & Hb & Hz & _).
  rewrite <- Hh, <- Hl, <- Hs in HF. rewrite <- Hs in HL, W.
  destruct (certificate_read cf Hcf co po _ _ _ _ _ _ _ _ Hc Hk W Hu HK HI HF HL HE) as (_ & _ & E).
  rewrite Hb, E, Hcr. unfold output_recursive. rewrite Hx, Hs. unfold sup_recursive. rewrite contains_bit. reflexivity.
Qed.
Print Assumptions C31_certificates.
Theorem C31_requests :
  forall cf C P (co : crypto_ops C) (po : platform_ops P) cmd loc w n w' h i cts,
    config_ok cf -> keys_fit cf co -> signer_der po -> wf cf (w_st w) -> command_wf cf cmd ->
    exec_command cf C P co po (x509_gen cf C P co po) cmd loc w = (Ok n, w') ->
    asks_request cmd -> presents cmd h ->
    first_slot (names (w_st w) h loc) i -> lineage (w_st w) i cts -> even_svns cts ->
    read_request (prof cf) (output cmd n (w_out w'))
    = Some (N.testbit (st_flags (w_st w)) 15, map (reported (N.testbit (st_support (w_st w)) 30)) (rev cts)).
Proof.
  intros cf C P co po cmd loc w n w' h i cts Hcf HK HI W HC H HA HP HF HL HE.
  destruct (request_command cf co po _ _ _ _ _ _ W HC H HA HP)
    as (a & cr & w1 & Hc & Hh & Hl & Hcr & _ & Hu & _ & _ & _ & Hn & Hb & Hz & _).
  rewrite <- Hh, <- Hl in HF.
  destruct (request_read cf Hcf co po _ _ _ _ _ _ _ _ Hc eq_refl W Hu HK HI HF HL HE) as (_ & _ & E).
  rewrite Hb, E, Hcr. unfold output_recursive. cbn [kind_exported]. unfold sup_recursive. rewrite contains_bit. reflexivity.
Qed.
Print Assumptions C31_requests.

(** The restriction is exact: if the SVNs on the chain are not even, the signed part of
    the certificate has no member a verifier could take for the extensions, so that
    neither measurements nor key nor issuer can be read from it. *)
Theorem C31_exact_certificates :
  forall cf C P (co : crypto_ops C) (po : platform_ops P) cmd loc w n w' h i cts,
    config_ok cf -> keys_fit cf co -> issuer_der po -> wf cf (w_st w) -> command_wf cf cmd ->
    exec_command cf C P co po (x509_gen cf C P co po) cmd loc w = (Ok n, w') ->
    asks_certificate cmd -> presents cmd h ->
    first_slot (names (w_st w) h loc) i -> lineage (w_st w) i cts ->
    let b := output cmd n (w_out w') in
    (even_svns cts <-> read_certificate (prof cf) b <> None) /\
    (~ even_svns cts -> certificate_exts (prof cf) b = None /\ certificate_facts (prof cf) b = None /\ read_issue (prof cf) b = None).
Proof.
  intros cf C P co po cmd loc w n w' h i cts Hcf HK HI W HC H HA HP HF HL b.
  assert (N : ~ even_svns cts -> certificate_exts (prof cf) b = None).
  { intros HE. destruct (certificate_command cf Hcf co po _ _ _ _ _ _ W HC H HA HP)
      as (k & a & cr & w0 & w1 & Hc & Hk & Hx & Hh & Hl & Hcr & _ & Hu & Hs & Ho & Hn & Hb & Hz & _).
    rewrite <- Hh, <- Hl, <- Hs in HF. rewrite <- Hs in HL, W. unfold b. rewrite Hb.
    exact (certificate_odd cf Hcf co po _ _ _ _ _ _ _ _ Hc Hk W HK HI HF HL HE). }
  split.
  - split.
    + intros HE. unfold b. rewrite (C31_certificates cf C P co po cmd loc w n w' h i cts) by assumption. discriminate.
    + intros HR. destruct (even_dec cts) as [HE|HE]; [exact HE|]. apply N in HE. unfold read_certificate in HR. rewrite HE in HR.
      exfalso. apply HR. reflexivity.
  - intros HE. apply N in HE. split; [exact HE|]. unfold certificate_facts, read_issue. rewrite HE.
    destruct (signed_members (prof cf) b); split; reflexivity.
Qed.
Print Assumptions C31_exact_certificates.
Theorem C31_exact_requests :
  forall cf C P (co : crypto_ops C) (po : platform_ops P) cmd loc w n w' h i cts,
    config_ok cf -> keys_fit cf co -> signer_der po -> wf cf (w_st w) -> command_wf cf cmd ->
    exec_command cf C P co po (x509_gen cf C P co po) cmd loc w = (Ok n, w') ->
    asks_request cmd -> presents cmd h ->
    first_slot (names (w_st w) h loc) i -> lineage (w_st w) i cts ->
    let b := output cmd n (w_out w') in
    (even_svns cts <-> read_request (prof cf) b <> None) /\
    (~ even_svns cts -> exists csr, read_content b = Some csr /\ csr_exts (prof cf) csr = None /\ request_facts (prof cf) b = None).
Proof.
  intros cf C P co po cmd loc w n w' h i cts Hcf HK HI W HC H HA HP HF HL b.
  assert (N : ~ even_svns cts -> exists csr, read_content b = Some csr /\ csr_exts (prof cf) csr = None).
  { intros HE. destruct (request_command cf co po _ _ _ _ _ _ W HC H HA HP)
      as (a & cr & w1 & Hc & Hh & Hl & Hcr & _ & Hu & _ & _ & _ & Hn & Hb & Hz & _).
    rewrite <- Hh, <- Hl in HF. unfold b. rewrite Hb.
    exact (request_odd cf Hcf co po _ _ _ _ _ _ _ _ Hc eq_refl W Hu HK HI HF HL HE). }
  split.
  - split.
    + intros HE. unfold b. rewrite (C31_requests cf C P co po cmd loc w n w' h i cts) by assumption. discriminate.
    + intros HR. destruct (even_dec cts) as [HE|HE]; [exact HE|]. apply N in HE as (csr & E1 & E2).
      unfold read_request, read_csr in HR. rewrite E1 in HR. cbn [obind] in HR. rewrite E2 in HR. exfalso. apply HR. reflexivity.
  - intros HE. apply N in HE as (csr & E1 & E2). exists csr. split; [exact E1|]. split; [exact E2|].
    unfold request_facts. rewrite E1. cbn [obind]. unfold csr_facts. rewrite E2. destruct (signed_members (prof cf) csr); reflexivity.
Qed.
Print Assumptions C31_exact_requests.

(** ** C43: an output certifies the key that the response is about *)

(** "DPE Leaf" and "DPE Exported CDI" *)
Definition common_name (exported : bool) : bytes :=
  if exported then [68; 80; 69; 32; 69; 120; 112; 111; 114; 116; 101; 100; 32; 67; 68; 73]
  else [68; 80; 69; 32; 76; 101; 97; 102].
(** What an output must say: the subject is named after the digest of its key, the
    UEID is the one asked for, and the key of a context may only sign attestations
    (digitalSignature, tcg-dice-kp-attestLoc) while the key of an exported CDI is a
    CA's (digitalSignature and keyCertSign, tcg-dice-kp-eca). *)
Definition says {P} (cf : config) {C} (co : crypto_ops C) (po : platform_ops P) (cmd : command) (f : facts) (db : bytes) : Prop :=
  (exists chunks, hash_of co chunks db /\ concat chunks = point (prof cf) (fa_key f)) /\
  fa_name f = (common_name (exports cmd), firstn 64 (upper_hex db)) /\
  ueid_for po cmd (fa_ueid f) /\ fa_ca f = exports cmd /\
  fa_usage f = (if exports cmd then [2; 0x84] else [7; 0x80]) /\
  fa_purpose f = oid_content (if exports cmd then [2; 23; 133; 5; 4; 100; 12] else [2; 23; 133; 5; 4; 100; 9]).

Theorem C43_certificates :
  forall cf C P (co : crypto_ops C) (po : platform_ops P) cmd loc w n w' h i cts,
    config_ok cf -> keys_fit cf co -> issuer_der po -> wf cf (w_st w) -> command_wf cf cmd ->
    exec_command cf C P co po (x509_gen cf C P co po) cmd loc w = (Ok n, w') ->
    asks_certificate cmd -> presents cmd h ->
    first_slot (names (w_st w) h loc) i -> lineage (w_st w) i cts -> even_svns cts ->
    let b := output cmd n (w_out w') in
    exists f db db2 idn v aki, certificate_facts (prof cf) b = Some f /\ says cf co po cmd f db /\
      (exports cmd = false -> fa_key f = slice (w_out w') 28 (output_start cmd - 32)) /\
      (exists chunks, hash_of co chunks db2 /\ concat chunks = point (prof cf) (fa_key f)) /\
      platform_gives po idn v aki /\
      read_issue (prof cf) b = Some {| is_serial := Z.of_N (be_val (firstn 20 (upper_hex db))); is_issuer := idn;
        is_validity := (cv_not_before v, cv_not_after v); is_authority := aki;
        is_key_id := if exports cmd then Some (firstn 20 db2) else None |}.
Proof.
  intros cf C P co po cmd loc w n w' h i cts Hcf HK HI W HC H HA HP HF HL HE b.
  destruct (certificate_command cf Hcf co po _ _ _ _ _ _ W HC H HA HP)
    as (k & a & cr & w0 & w1 & Hc & Hk & Hx & Hh & Hl & Hcr & Hue & Hu & Hs & Ho & Hn & Hb & Hz & Hy).
  rewrite <- Hh, <- Hl, <- Hs in HF. rewrite <- Hs in HL, W.
  destruct (certificate_says cf Hcf co po _ _ _ _ _ _ _ _ Hc Hk W Hu HK HI HF HL HE) as (d & d2 & idn & v & aki & D1 & D2 & HG & E1 & E2).
  fold b in Hb. rewrite <- Hb in *. rewrite Hx in E2.
  assert (KF : key_of (prof cf) (cr_pubkey cr)).
  { pose proof (made_inv cf co po _ _ _ _ _ _ Hc) as (x & wd & m & wr & HD & _ & _ & _ & _ & _ & Epk & _).
    rewrite Epk. eapply drafted_key; eauto. }
  exists (output_facts cf k a (cr_pubkey cr) d), (digest_bytes d), (digest_bytes d2), idn, v, aki.
  split; [exact E1|]. split.
  { unfold says, output_facts. cbn [fa_name fa_key fa_ueid fa_ca fa_usage fa_purpose]. rewrite Hx.
    split; [apply (key_digest_hashed cf (P := P)); assumption|].
    split; [unfold subject_serial; rewrite hex_of_spec by apply digest_bytes_bytes; destruct (exports cmd); reflexivity|].
    split; [exact Hue|]. split; [reflexivity|]. split; [reflexivity|]. destruct (exports cmd); reflexivity. }
  split; [intros X; rewrite X in Hy; symmetry; exact Hy|].
  split; [apply (key_digest_hashed cf (P := P)); assumption|]. split; [exact HG|].
  rewrite E2. unfold subject_serial. rewrite hex_of_spec by apply digest_bytes_bytes. rewrite firstn_firstn. reflexivity.
Qed.
Print Assumptions C43_certificates.
Theorem C43_requests :
  forall cf C P (co : crypto_ops C) (po : platform_ops P) cmd loc w n w' h i cts,
    config_ok cf -> keys_fit cf co -> signer_der po -> wf cf (w_st w) -> command_wf cf cmd ->
    exec_command cf C P co po (x509_gen cf C P co po) cmd loc w = (Ok n, w') ->
    asks_request cmd -> presents cmd h ->
    first_slot (names (w_st w) h loc) i -> lineage (w_st w) i cts -> even_svns cts ->
    let b := output cmd n (w_out w') in
    exists f db, request_facts (prof cf) b = Some f /\ says cf co po cmd f db /\
      fa_key f = slice (w_out w') 28 (output_start cmd - 32).
Proof.
  intros cf C P co po cmd loc w n w' h i cts Hcf HK HI W HC H HA HP HF HL HE b.
  destruct (request_command cf co po _ _ _ _ _ _ W HC H HA HP)
    as (a & cr & w1 & Hc & Hh & Hl & Hcr & Hue & Hu & _ & _ & _ & Hn & Hb & Hz & Hy).
  rewrite <- Hh, <- Hl in HF.
  destruct (request_says cf Hcf co po _ _ _ _ _ _ _ _ Hc eq_refl W Hu HK HI HF HL HE) as (d & D1 & E1).
  fold b in Hb. rewrite <- Hb in *.
  assert (KF : key_of (prof cf) (cr_pubkey cr)).
  { pose proof (made_inv cf co po _ _ _ _ _ _ Hc) as (x & wd & m & wr & HD & _ & _ & _ & _ & _ & Epk & _).
    rewrite Epk. eapply drafted_key; eauto. }
  assert (HX : exports cmd = false) by (destruct cmd; try destruct HA; reflexivity).
  exists (output_facts cf KindCsr a (cr_pubkey cr) d), (digest_bytes d).
  split; [exact E1|]. split; [|symmetry; exact Hy].
  unfold says, output_facts. cbn [fa_name fa_key fa_ueid fa_ca fa_usage fa_purpose kind_exported]. rewrite HX.
  split; [apply (key_digest_hashed cf (P := P)); assumption|].
  split; [unfold subject_serial; rewrite hex_of_spec by apply digest_bytes_bytes; reflexivity|].
  split; [exact Hue|]. split; [reflexivity|]. split; reflexivity.
Qed.
Print Assumptions C43_requests.

(** Non-vacuity of C29, C31 and C43: the child of a root is certified; its SVN is 5. *)
Definition child_with (svn : N) : list (command * N) :=
  [(init_default, 0);
   (CmdDeriveContext {| dc_handle := H0; dc_data := data 7; dc_flags := 2 ^ 28 + 2 ^ 25; dc_tci_type := 5;
                        dc_target_locality := 0; dc_svn := svn |}, 0)].
Definition x_chain (l : list (command * N)) (i : nat) : list context :=
  match chain_fn 4 (w_st (x_run l)) i with Some c => c | None => [] end.
Lemma x_chain_ok l i : x_chain l i <> [] -> lineage (w_st (x_run l)) i (x_chain l i).
Proof. unfold x_chain. destruct (chain_fn 4 (w_st (x_run l)) i) as [c|] eqn:E; [|congruence]. intros _. eapply chain_fn_ok; eauto. Qed.
Lemma x_ok n w cmd loc : fst (x_exec cmd loc w) = Ok n -> x_exec cmd loc w = (Ok n, snd (x_exec cmd loc w)).
Proof. intros H. rewrite <- H. apply surjective_pairing. Qed.
Lemma x_ok_exec n w cmd loc : fst (x_exec cmd loc w) = Ok n ->
  exec_command toy_cf toy_c unit xc xp (x509_gen toy_cf toy_c unit xc xp) cmd loc w = (Ok n, snd (x_exec cmd loc w)).
Proof. exact (x_ok n w cmd loc). Qed.
Lemma child_reachable svn : svn < 2 ^ 32 -> reachable toy_cf (w_st (x_run (child_with svn))).
Proof.
  intros H. apply x_reachable. apply Forall_cons; [split; [reflexivity|reflexivity]|]. apply Forall_cons; [|apply Forall_nil].
  split; [|reflexivity]. cbn [fst command_wf]. repeat split; try reflexivity; try exact H; repeat constructor.
Qed.
Example C29_case :
  let w := x_run (child_with 5) in
  config_ok toy_cf /\ keys_fit toy_cf xc /\ issuer_der xp /\ signer_der xp /\ wf toy_cf (w_st w) /\
  command_wf toy_cf (certify H0 0) /\ command_wf toy_cf (certify H0 1) /\
  x_exec (certify H0 0) 0 w = (Ok 829, snd (x_exec (certify H0 0) 0 w)) /\ asks_certificate (certify H0 0) /\
  x_exec (certify H0 1) 0 w = (Ok 946, snd (x_exec (certify H0 1) 0 w)) /\ asks_request (certify H0 1) /\
  presents (certify H0 0) H0 /\ first_slot (names (w_st w) H0 0) 1 /\
  lineage (w_st w) 1 (x_chain (child_with 5) 1) /\ even_svns (x_chain (child_with 5) 1) /\ length (x_chain (child_with 5) 1) = 2%nat.
Proof.
  intros w. split; [exact toy_cf_ok|]. split; [exact x_keys_fit|]. split; [exact x_issuer_der|]. split; [exact x_signer_der|].
  split; [apply (reachable_wf toy_cf toy_cf_ok), child_reachable; reflexivity|].
  split; [repeat split; repeat constructor|]. split; [repeat split; repeat constructor|].
  split; [apply x_ok; vm_compute; reflexivity|]. split; [reflexivity|].
  split; [apply x_ok; vm_compute; reflexivity|]. split; [discriminate|]. split; [reflexivity|].
  split.
  { split; [eexists; vm_compute; repeat split|]. intros j Hj. assert (j = 0%nat) as -> by lia. intros (c & A & B & _). vm_compute in A.
    injection A as <-. discriminate B. }
  split; [apply x_chain_ok; vm_compute; discriminate|]. split; [|vm_compute; reflexivity].
  assert (E : map svn_len (x_chain (child_with 5) 1) = [1; 1]%nat) by (vm_compute; reflexivity).
  assert (K : forall c, In c (x_chain (child_with 5) 1) -> svn_len c = 1%nat).
  { intros c Hc. apply (in_map svn_len) in Hc. rewrite E in Hc. cbn [In] in Hc. intuition. }
  apply uniform_even. intros a b Ha Hb. rewrite (K a Ha), (K b Hb). reflexivity.
Qed.

Lemma holds_no_der b : option_map decode (read_content b) = Some None -> exists csr, read_content b = Some csr /\ decode csr = None.
Proof. destruct (read_content b) as [csr|]; [|discriminate]. intros E. exists csr. split; [reflexivity|]. cbn [option_map] in E. congruence. Qed.
(** The restriction to SVNs of one length cannot be dropped: if the child's SVN takes
    two octets and the root's one, CertifyKey succeeds with a certificate, or a message
    with a request, that is not a DER value at all, because the writer computes the size of
    every entry from the root's (x509.rs, get_tcb_infos_size). *)
Theorem C29_uneven_refuted :
  exists w n n' w' w'',
    config_ok toy_cf /\ keys_fit toy_cf xc /\ issuer_der xp /\ signer_der xp /\ reachable toy_cf (w_st w) /\
    command_wf toy_cf (certify H0 0) /\ command_wf toy_cf (certify H0 1) /\
    exec_command toy_cf toy_c unit xc xp (x509_gen toy_cf toy_c unit xc xp) (certify H0 0) 0 w = (Ok n, w') /\
    decode (output (certify H0 0) n (w_out w')) = None /\ read_certificate P256Sha256 (output (certify H0 0) n (w_out w')) = None /\
    exec_command toy_cf toy_c unit xc xp (x509_gen toy_cf toy_c unit xc xp) (certify H0 1) 0 w = (Ok n', w'') /\
    exists csr, read_content (output (certify H0 1) n' (w_out w'')) = Some csr /\ decode csr = None.
Proof.
  exists (x_run (child_with 200)), 830, 945, (snd (x_exec (certify H0 0) 0 (x_run (child_with 200)))), (snd (x_exec (certify H0 1) 0 (x_run (child_with 200)))).
  split; [exact toy_cf_ok|]. split; [exact x_keys_fit|]. split; [exact x_issuer_der|]. split; [exact x_signer_der|].
  split; [apply child_reachable; reflexivity|].
  split; [repeat split; repeat constructor|]. split; [repeat split; repeat constructor|].
  split; [apply x_ok_exec; vm_compute; reflexivity|]. split; [vm_compute; reflexivity|]. split; [vm_compute; reflexivity|].
  split; [apply x_ok_exec; vm_compute; reflexivity|].
  apply holds_no_der. vm_compute. reflexivity.
Qed.
Print Assumptions C29_uneven_refuted.

(** Non-vacuity of the exact theorems: SVNs that are not even, on a chain of two.  SVNs
    of different lengths can still be even: a chain of three with lengths 1, 3 and 2. *)
Example C31_exact_case :
  let w := x_run (child_with 200) in
  wf toy_cf (w_st w) /\ first_slot (names (w_st w) H0 0) 1 /\ lineage (w_st w) 1 (x_chain (child_with 200) 1) /\
  ~ even_svns (x_chain (child_with 200) 1) /\
  forall a b r, svn_len a = 1%nat -> svn_len b = 3%nat -> svn_len r = 2%nat -> even_svns [a; b; r].
Proof.
  intros w. split; [apply (reachable_wf toy_cf toy_cf_ok), child_reachable; reflexivity|].
  split.
  { split; [eexists; vm_compute; repeat split|]. intros j Hj. assert (j = 0%nat) as -> by lia. intros (c & A & B & _). vm_compute in A.
    injection A as <-. discriminate B. }
  split; [apply x_chain_ok; vm_compute; discriminate|]. split.
  - assert (E : map svn_len (x_chain (child_with 200) 1) = [2; 1]%nat) by (vm_compute; reflexivity).
    destruct (x_chain (child_with 200) 1) as [|a [|b [|? ?]]]; try discriminate. intros HE.
    specialize (HE [a] b eq_refl). cbn [map length] in *. injection E as E1 E2. rewrite E1, E2 in HE. discriminate.
  - intros a b r Ha Hb Hr l root E. change [a; b; r] with ([a; b] ++ [r]) in E. apply app_inj_tail in E as [_ <-].
    cbn [map length]. rewrite Ha, Hb, Hr. reflexivity.
Qed.

(** ** C47: a request names the signer that the platform names *)

(** The only SignerInfo of the message has the version that belongs to its form of
    signer identifier, the profile's algorithms, and identifies the signer: an issuer
    and serial number are those of the platform.  A key identifier is not: a reader gets
    the OCTET STRING that encodes it. *)
Theorem C47_requests_partial :
  forall cf C P (co : crypto_ops C) (po : platform_ops P) cmd loc w n w' h i cts,
    config_ok cf -> keys_fit cf co -> signer_der po -> wf cf (w_st w) -> command_wf cf cmd ->
    exec_command cf C P co po (x509_gen cf C P co po) cmd loc w = (Ok n, w') ->
    asks_request cmd -> presents cmd h ->
    first_slot (names (w_st w) h loc) i -> lineage (w_st w) i cts ->
    exists sid g p ps p', read_signer (prof cf) (output cmd n (w_out w')) = Some (sid, g) /\
      po_signer_identifier po p = (inl ps, p') /\
      match cap_sid ps with
      | IssuerAndSerialNumber issuer serial => read_sid sid = Some (ByIssuer issuer (Z.of_N (be_val serial)))
      | SubjectKeyIdentifier kid => read_sid sid = Some (ByKey (enc (OCTETS kid)))
      end.
Proof.
  intros cf C P co po cmd loc w n w' h i cts Hcf HK HI W HC H HA HP HF HL.
  destruct (request_command cf co po _ _ _ _ _ _ W HC H HA HP)
    as (a & cr & w1 & Hc & Hh & Hl & _ & _ & Hu & _ & _ & _ & Hn & Hb & Hz & _).
  rewrite <- Hh, <- Hl in HF.
  destruct (request_any cf Hcf co po _ _ _ _ _ _ _ _ Hc eq_refl W Hu HK HI HF HL)
    as (name & attrs & d & g1 & g2 & c1 & c2 & sid & _ & _ & _ & _ & _ & _ & E1 & p & ps & p' & E2 & E3).
  rewrite Hb. exists sid, (flat (signature_octets g2)), p, ps, p'. split; [exact E1|]. split; [exact E2|].
  rewrite E3. destruct (cap_sid ps); reflexivity.
Qed.
Print Assumptions C47_requests_partial.
(** Non-vacuity: C29_case, and a platform that names an (empty) issuer name and the
    serial number 0x80FF. *)
Definition xp_issuer : platform_ops unit :=
  {| po_certificate_chain := po_certificate_chain xp; po_issuer_name := po_issuer_name xp;
     po_signer_identifier := fun p => (inl (IssuerAndSerialNumber [48; 0] [0x80; 0xFF]), p);
     po_issuer_key_identifier := po_issuer_key_identifier xp; po_vendor_id := po_vendor_id xp; po_vendor_sku := po_vendor_sku xp;
     po_auto_init_locality := po_auto_init_locality xp; po_cert_validity := po_cert_validity xp;
     po_subject_alt_name := po_subject_alt_name xp; po_ueid := po_ueid xp |}.
Example C47_case :
  signer_der xp_issuer /\
  let w := x_run (child_with 5) in
  let r := exec_command toy_cf toy_c unit xc xp_issuer (x509_gen toy_cf toy_c unit xc xp_issuer) (certify H0 1) 0 w in
  exists n, fst r = Ok n /\
    option_map (fun x => read_sid (fst x)) (read_signer P256Sha256 (output (certify H0 1) n (w_out (snd r))))
    = Some (Some (ByIssuer [48; 0] 0x80FF)).
Proof.
  split.
  - intros p sid p' H. apply (f_equal fst) in H. cbn [fst xp_issuer po_signer_identifier] in H. injection H as <-.
    cbn. split; [|discriminate]. exists (Cons 48 []). split; [|reflexivity]. vm_compute. repeat split; discriminate.
  - exists 948. split; vm_compute; reflexivity.
Qed.

(** A platform that names its issuer key by the identifier 1, 2, 3: the request is made,
    and its signer is read as the key with the identifier 4, 3, 1, 2, 3
    (x509.rs:1935-1951 puts an OCTET STRING into the implicitly tagged field, which is one
    already). *)
Theorem C47_key_identifier_refuted :
  exists w n w' sid g,
    config_ok toy_cf /\ keys_fit toy_cf xc /\ signer_der xp /\ reachable toy_cf (w_st w) /\ command_wf toy_cf (certify H0 1) /\
    exec_command toy_cf toy_c unit xc xp (x509_gen toy_cf toy_c unit xc xp) (certify H0 1) 0 w = (Ok n, w') /\
    (forall p, po_signer_identifier xp p = (inl (SubjectKeyIdentifier [1; 2; 3]), p)) /\
    read_signer P256Sha256 (output (certify H0 1) n (w_out w')) = Some (sid, g) /\ read_sid sid = Some (ByKey [4; 3; 1; 2; 3]).
Proof.
  exists (x_run (child_with 5)), 946, (snd (x_exec (certify H0 1) 0 (x_run (child_with 5)))).
  set (o := read_signer P256Sha256 (output (certify H0 1) 946 (w_out (snd (x_exec (certify H0 1) 0 (x_run (child_with 5))))))).
  assert (E : option_map (fun x => read_sid (fst x)) o = Some (Some (ByKey [4; 3; 1; 2; 3]))) by (vm_compute; reflexivity).
  destruct o as [[sid g]|]; [|discriminate]. exists sid, g. cbn [option_map fst] in E.
  split; [exact toy_cf_ok|]. split; [exact x_keys_fit|]. split; [exact x_signer_der|].
  split; [apply child_reachable; reflexivity|]. split; [repeat split; repeat constructor|].
  split; [apply x_ok_exec; vm_compute; reflexivity|]. split; [reflexivity|]. split; [reflexivity|]. congruence.
Qed.
Print Assumptions C47_key_identifier_refuted.

(** ** C21 and C23 with the modelled certificate writer *)

(** A DPE that issues certificates with this writer never crashes, whatever bytes it
    is sent, if its platform ends its certificate chain. *)
Theorem C21_x509_bytes :
  forall cf C P (co : crypto_ops C) (po : platform_ops P) loc b s c p out r w',
    config_ok cf -> reachable cf s -> (forall q, chain_stops po (fuel cf) 0 (repeat 0 2048) q) -> all_bytes b ->
    execute_serialized_command cf C P co po (x509_gen cf C P co po) loc b (mkWorld s c p out) = (r, w') ->
    forall k, r <> Crash k.
Proof.
  intros cf C P co po loc b s c p out r w' Hcf R He Hb H.
  pose (e := {| e_C := C; e_P := P; e_crypto := co; e_platform := po; e_cert := x509_gen cf C P co po |}).
  exact (C21_bytes cf e loc b s c p out r w' Hcf R (x509_sane cf co po) (x509_returns cf Hcf co po He) He Hb H).
Qed.
Print Assumptions C21_x509_bytes.
(** Its answers, carried over a channel, are read back as the response structures
    that belong to the command. *)
Theorem C23_x509_wire :
  forall cf C P (co : crypto_ops C) (po : platform_ops P) cmd loc w n w',
    config_ok cf -> wf cf (w_st w) -> command_wf cf cmd -> all_bytes (w_out w) ->
    exec_command cf C P co po (x509_gen cf C P co po) cmd loc w = (Ok n, w') ->
    let sent := firstn (N.to_nat n) (w_out w') in
    exists resp, try_read_from_bytes cf cmd sent = Ok resp /\ answers cf cmd resp /\
      response_hdr_of resp = {| rh_magic := 0x44504552; rh_status := 0; rh_profile := prof cf |} /\
      response_bytes resp = firstn (N.to_nat (wire_size cf cmd)) (sent ++ repeat 0 (N.to_nat (wire_size cf cmd))).
Proof.
  intros cf C P co po cmd loc w n w' Hcf W Wc Hb H.
  pose (e := {| e_C := C; e_P := P; e_crypto := co; e_platform := po; e_cert := x509_gen cf C P co po |}).
  exact (C23_wire cf e cmd loc w n w' Hcf W Wc (x509_sane cf co po) Hb H).
Qed.
Print Assumptions C23_x509_wire.
Theorem C23_x509_execute :
  forall cf C P (co : crypto_ops C) (po : platform_ops P) cmd loc w r w',
    config_ok cf -> wf cf (w_st w) -> command_wf cf cmd ->
    execute cf C P co po (x509_gen cf C P co po) cmd loc w = (r, w') ->
    exists r0 w1,
      exec_command cf C P co po (x509_gen cf C P co po) cmd loc
        (mkWorld (w_st w) (w_c w) (w_p w) (repeat 0 (N.to_nat (wire_size cf cmd)))) = (r0, w1) /\
      w' = mkWorld (w_st w1) (w_c w1) (w_p w1) (w_out w) /\
      match r0 with
      | Ok _ => exists resp, r = Ok resp /\ answers cf cmd resp /\ response_bytes resp = w_out w1 /\
          response_hdr_of resp = {| rh_magic := 0x44504552; rh_status := 0; rh_profile := prof cf |}
      | Err e => r = Err e
      | Crash k => r = Crash k
      end.
Proof.
  intros cf C P co po cmd loc w r w' Hcf W Wc H.
  pose (e := {| e_C := C; e_P := P; e_crypto := co; e_platform := po; e_cert := x509_gen cf C P co po |}).
  exact (C23_execute cf e cmd loc w r w' Hcf W Wc (x509_sane cf co po) H).
Qed.
Print Assumptions C23_x509_execute.
