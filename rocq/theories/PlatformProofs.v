(** PlatformProofs.v -- the reference platform hands out its certificate chain piece by
    piece (C32), and meets what other theorems assume about a platform. *)
From Verif Require Import Base Errors Types StateOps Env Wire Instance Commands DefaultPlatform Lib Spec Exec Effects
  History Contract Codec Steps Reach Responses Measure Der X509 X509Cert X509Spec X509Cmd KeyProofs.
Local Open Scope nat_scope.

(** ** Specification *)

(** Offsets and sizes up to 2048 stay below 2^32. *)
Definition chain_fits (chain : bytes) : Prop := (N.of_nat (length chain) <= 2 ^ 32 - 2048)%N.

(** The bytes asked for. *)
Definition piece (chain : bytes) (off size : N) : bytes := firstn (N.to_nat size) (skipn (N.to_nat off) chain).

(** The chunk a client reads from a response: the size field and so many bytes behind
    it. *)
Definition chunk_of (out : bytes) : bytes := firstn (N.to_nat (le_val (slice out 12 4))) (skipn 16 out).

(** ** Proofs *)

Lemma piece_length chain off size : (off < N.of_nat (length chain))%N ->
  length (piece chain off size) = N.to_nat (N.min size (N.of_nat (length chain) - off)).
Proof. intros H. unfold piece. rewrite firstn_length, skipn_length. lia. Qed.
Lemma piece_small chain off size : (size <= 2048)%N -> length (piece chain off size) <= 2048.
Proof. intros H. unfold piece. rewrite firstn_length. lia. Qed.

Section Chain.
  Variables chain issuer serial ski : bytes.
  Hypothesis Hlen : chain_fits chain.
  Notation po := (default_platform chain issuer serial ski).

  Let fits : (N.of_nat (length chain) < 2 ^ 32)%N.
  Proof. unfold chain_fits in Hlen. lia. Qed.

  Lemma default_chain_end off size out : (N.of_nat (length chain) <= off)%N ->
    default_chain chain off size out = Some (inr PECertificateChain, out).
  Proof.
    intros H. unfold default_chain. rewrite N.mod_small by exact fits.
    apply N.leb_le in H. rewrite H. reflexivity.
  Qed.
  Lemma default_chain_more off size out : (off < N.of_nat (length chain))%N -> (size <= 2048)%N -> length out = 2048 ->
    default_chain chain off size out
    = Some (inl (N.of_nat (length (piece chain off size))),
            piece chain off size ++ skipn (length (piece chain off size)) out).
  Proof.
    intros H Hs Ho. rewrite piece_length by exact H. unfold default_chain.
    rewrite N.mod_small by exact fits. unfold chain_fits in Hlen.
    destruct (N.leb_spec (N.of_nat (length chain)) off); [lia|].
    destruct (N.leb_spec (2 ^ 32) (off + size)); [lia|].
    replace (N.min (off + size) (N.of_nat (length chain)) - off)%N with (N.min size (N.of_nat (length chain) - off)) by lia.
    set (k := N.min size (N.of_nat (length chain) - off)).
    destruct (N.ltb_spec 2048 k); [lia|]. destruct (N.ltb_spec (N.of_nat (length out)) k); [lia|].
    rewrite N2Nat.id. do 3 f_equal. unfold piece.
    destruct (N.le_gt_cases size (N.of_nat (length chain) - off)) as [L|L].
    - f_equal. lia.
    - rewrite !firstn_all2; [reflexivity|rewrite skipn_length; lia|rewrite skipn_length; lia].
  Qed.

  Lemma platform_chain_end off size out p : (N.of_nat (length chain) <= off)%N ->
    po_certificate_chain po off size out p = (inr PECertificateChain, out, p).
  Proof. intros H. cbn [po_certificate_chain default_platform]. rewrite default_chain_end by exact H. reflexivity. Qed.
  Lemma platform_chain_more off size out p : (off < N.of_nat (length chain))%N -> (size <= 2048)%N -> length out = 2048 ->
    po_certificate_chain po off size out p
    = (inl (N.of_nat (length (piece chain off size))), piece chain off size ++ skipn (length (piece chain off size)) out, p).
  Proof. intros H1 H2 H3. cbn [po_certificate_chain default_platform]. rewrite default_chain_more by assumption. reflexivity. Qed.

  (** ** Hashing the chain *)

  Lemma default_steady_from : all_bytes chain -> forall off buf p l p',
    length buf = 2048 -> all_bytes buf -> chain_read po off buf p l p' -> concat l = skipn (N.to_nat off) chain.
  Proof.
    intros HB off buf p l p' Lb Bb H. induction H as [off buf p e b p' E|off buf p n b p1 chunks p' E Hn Ho R IH].
    - destruct (N.le_gt_cases (N.of_nat (length chain)) off) as [L|L].
      + rewrite skipn_all2 by lia. reflexivity.
      + rewrite (platform_chain_more _ _ _ _ L) in E by (lia || exact Lb). discriminate.
    - destruct (N.le_gt_cases (N.of_nat (length chain)) off) as [L|L].
      + rewrite (platform_chain_end _ _ _ _ L) in E. discriminate.
      + rewrite (platform_chain_more _ _ _ _ L) in E by (lia || exact Lb).
        apply (f_equal fst) in E. cbn [fst] in E. pose proof (f_equal fst E) as E1. apply (f_equal snd) in E. cbn [fst snd] in E, E1.
        assert (K : length (piece chain off 2048) <= 2048) by (apply piece_small; lia).
        assert (M : (n mod 2 ^ 32)%N = N.of_nat (length (piece chain off 2048))).
        { injection E1 as <-. apply N.mod_small. lia. }
        rewrite M in *. clear E1.
        assert (TB : to_buf 2048 b = b).
        { subst b. apply to_buf_id.
          - rewrite app_length, skipn_length, Lb. lia.
          - apply Forall_app. split.
            + unfold piece. apply Forall_forall. intros x Hx. apply (proj1 (Forall_forall _ _) HB).
              rewrite <- (firstn_skipn (N.to_nat off) chain). apply in_or_app. right.
              rewrite <- (firstn_skipn (N.to_nat 2048) (skipn (N.to_nat off) chain)). apply in_or_app. left. exact Hx.
            + apply Forall_forall. intros x Hx. apply (proj1 (Forall_forall _ _) Bb).
              rewrite <- (firstn_skipn (length (piece chain off 2048)) buf). apply in_or_app. right. exact Hx. }
        cbn [concat]. rewrite IH; [|apply length_to_buf|apply all_bytes_to_buf]. rewrite TB, Nat2N.id. subst b.
        rewrite firstn_app, Nat.sub_diag, firstn_O, app_nil_r, firstn_all2 by lia.
        rewrite (piece_length _ _ _ L), N2Nat.inj_add, Nat2N.id. unfold piece.
        rewrite <- (firstn_skipn (N.to_nat 2048) (skipn (N.to_nat off) chain)) at 2. f_equal.
        rewrite Codec.skip_skip. destruct (N.le_gt_cases 2048 (N.of_nat (length chain) - off)) as [L2|L2].
        * f_equal. lia.
        * rewrite !skipn_all2 by lia. reflexivity.
  Qed.

  Lemma default_stops_from : forall n off buf p, length buf = 2048 -> length chain < N.to_nat off + 2048 * n ->
    chain_stops po (S n) off buf p.
  Proof.
    induction n as [|n IH]; intros off buf p Lb Hn.
    - eapply cs_end. apply platform_chain_end. lia.
    - destruct (N.le_gt_cases (N.of_nat (length chain)) off) as [L|L].
      + eapply cs_end. apply platform_chain_end. exact L.
      + assert (K : length (piece chain off 2048) <= 2048) by (apply piece_small; lia).
        assert (M : (N.of_nat (length (piece chain off 2048)) mod 2 ^ 32)%N = N.of_nat (length (piece chain off 2048))).
        { apply N.mod_small. lia. }
        eapply cs_more; [apply platform_chain_more; [exact L|lia|exact Lb]| |]; rewrite M.
        * unfold chain_fits in Hlen. lia.
        * pose proof (piece_length chain off 2048 L) as PL.
          destruct (N.le_gt_cases 2048 (N.of_nat (length chain) - off)) as [L2|L2].
          -- apply IH; [apply length_to_buf|lia].
          -- eapply cs_end. apply platform_chain_end. lia.
  Qed.

  Lemma default_steady : all_bytes chain -> steady po default_vendor_id default_vendor_sku chain.
  Proof.
    intros HB. split.
    - intros p v p' H. cbn [po_vendor_id default_platform] in H. congruence.
    - intros p v p' H. cbn [po_vendor_sku default_platform] in H. congruence.
    - intros p l p' H. apply default_steady_from in H; [exact H|exact HB|apply repeat_length|].
      apply Forall_forall. intros x Hx. apply repeat_spec in Hx. subst. reflexivity.
  Qed.
End Chain.

(** ** Names *)

Section Names.
  Variables chain issuer serial ski : bytes.
  Notation po := (default_platform chain issuer serial ski).

  Lemma default_issuer_der idn : proper idn -> enc idn = issuer -> all_bytes issuer -> issuer_der po.
  Proof.
    intros HP HE HB p n b p' H. cbn [po_issuer_name default_platform] in H. unfold default_issuer_name in H.
    destruct (Nat.ltb_spec (length (repeat 0%N 128)) (length issuer)) as [L|L].
    { apply (f_equal fst) in H. apply (f_equal fst) in H. discriminate. }
    pose proof (f_equal (fun x => fst (fst x)) H) as H1. apply (f_equal (fun x => snd (fst x))) in H. cbn [fst snd] in H, H1.
    assert (n = N.of_nat (length issuer)) by congruence. subst n b. rewrite repeat_length in L.
    exists idn. split; [exact HP|]. rewrite Nat2N.id, to_buf_id.
    - rewrite firstn_app, Nat.sub_diag, firstn_O, app_nil_r, firstn_all. exact HE.
    - rewrite app_length, skipn_length, repeat_length. lia.
    - apply Forall_app. split; [exact HB|]. apply Forall_forall. intros x Hx.
      assert (In x (repeat 0%N 128)) by (rewrite <- (firstn_skipn (length issuer) (repeat 0%N 128)); apply in_or_app; right; exact Hx).
      apply repeat_spec in H. subst. reflexivity.
  Qed.
  Lemma default_signer_der idn : proper idn -> enc idn = issuer -> all_bytes issuer -> all_bytes serial -> serial <> [] -> signer_der po.
  Proof.
    intros HP HE HB HS HN p sid p' H. cbn [po_signer_identifier default_platform] in H. apply (f_equal fst) in H. cbn [fst] in H.
    unfold default_signer_identifier, default_issuer_name in H. change max_issuer_name_size with 128 in H. rewrite repeat_length in H.
    destruct (Nat.ltb_spec 128 (length issuer)) as [L|L]; [discriminate|].
    destruct (N.ltb _ _); [discriminate|]. change max_sn_size with 20 in H.
    destruct (Nat.ltb_spec 20 (length serial)) as [L2|L2]; [discriminate|].
    rewrite Nat2N.id, firstn_app, Nat.sub_diag, firstn_O, app_nil_r, firstn_all in H. injection H as <-.
    cbn [cap_sid]. change max_issuer_name_size with 128. change max_sn_size with 20.
    assert (K : forall n l, all_bytes l -> length l <= n -> to_vec n l = l).
    { intros n l Hl Ll. unfold to_vec. rewrite firstn_all2 by exact Ll. clear Ll.
      induction Hl as [|x l Hx Hl IH]; cbn [map]; [reflexivity|]. rewrite IH, N.mod_small by exact Hx. reflexivity. }
    rewrite !K by assumption. split; [exists idn; auto|exact HN].
  Qed.
End Names.

(** ** GetCertificateChain *)

Section Requests.
  Variable cf : config.
  Variable C : Type.
  Variable co : crypto_ops C.
  Variable cg : cert_kind -> cert_args -> nat -> state -> C -> unit -> bytes -> result cert_result * C * unit * bytes.
  Variables chain issuer serial ski : bytes.
  Hypothesis Hlen : chain_fits chain.
  Notation po := (default_platform chain issuer serial ski).
  Notation exec := (exec_command cf C unit co po cg).

  Lemma request_large off size loc w : (2048 < size)%N ->
    exec (CmdGetCertificateChain off size) loc w = (Err InvalidArgument, w).
  Proof.
    intros H. cbn [exec_command]. unfold exec_get_chain. change max_chunk_size with 2048%N.
    apply N.ltb_lt in H. rewrite H. reflexivity.
  Qed.
  Lemma request_past off size loc w : (size <= 2048)%N -> (N.of_nat (length chain) <= off)%N ->
    exec (CmdGetCertificateChain off size) loc w = (Err (PlatformErr PECertificateChain), w).
  Proof.
    intros H H1. cbn [exec_command]. unfold exec_get_chain. change max_chunk_size with 2048%N.
    apply N.ltb_ge in H. rewrite H. unfold bind, cert_chain_call.
    rewrite platform_chain_end by assumption. destruct w. reflexivity.
  Qed.
  Lemma request_within off size loc w r w' : all_bytes chain -> (size <= 2048)%N -> (off < N.of_nat (length chain))%N ->
    exec (CmdGetCertificateChain off size) loc w = (r, w') ->
    w_st w' = w_st w /\ w_c w' = w_c w /\
    if length (w_out w) <? 2064 then r = Err InvalidResponseBuf /\ w_out w' = w_out w
    else r = Ok 2064%N /\ success_header cf (w_out w') /\ chunk_of (w_out w') = piece chain off size /\
         length (w_out w') = length (w_out w) /\ skipn 2064 (w_out w') = skipn 2064 (w_out w).
  Proof.
    intros HB H H1. cbn [exec_command]. unfold exec_get_chain. change max_chunk_size with 2048%N.
    rewrite (proj2 (N.ltb_ge _ _) H). unfold bind, cert_chain_call. change (N.to_nat max_chunk_size) with 2048. change (N.to_nat 2048) with 2048.
    rewrite platform_chain_more by (assumption || apply repeat_length).
    set (k := length (piece chain off size)). set (buf := to_buf 2048 (piece chain off size ++ skipn k (repeat 0%N 2048))).
    assert (K : k <= 2048) by (apply piece_small; exact H).
    assert (Lb : length buf = 2048) by apply length_to_buf.
    assert (Eb : firstn k buf = piece chain off size).
    { unfold buf. rewrite to_buf_id.
      - rewrite firstn_app. fold k. rewrite Nat.sub_diag, firstn_O, app_nil_r, firstn_all2 by (fold k; lia). reflexivity.
      - rewrite app_length, skipn_length, repeat_length. fold k. lia.
      - apply Forall_app. split.
        + apply Forall_forall. intros x Hx. apply (proj1 (Forall_forall _ _) HB).
          rewrite <- (firstn_skipn (N.to_nat off) chain). apply in_or_app. right.
          rewrite <- (firstn_skipn (N.to_nat size) (skipn (N.to_nat off) chain)). apply in_or_app. left. exact Hx.
        + apply Forall_forall. intros x Hx. assert (In x (repeat 0%N 2048)).
          { rewrite <- (firstn_skipn k (repeat 0%N 2048)). apply in_or_app. right. exact Hx. }
          apply repeat_spec in H0. subst. reflexivity. }
    clearbody buf. intros E. unfold respond in E. apply bind_inv in E.
    rewrite N.mod_small in E by lia. set (bs := cert_chain_resp_bytes cf (N.of_nat k) buf) in *.
    assert (Ls : length bs = 2064).
    { unfold bs, cert_chain_resp_bytes. rewrite !app_length, length_ok_hdr, length_le_bytes, Lb. reflexivity. }
    destruct E as [(a & w1 & E & X)|[(e & E & X)|(e & E & X)]].
    - apply write_out_inv in E as (Hs & Hc & _ & [(L & R & O)|(L & R & O)]); [|discriminate].
      apply ret_inv in X as [-> ->]. split; [exact Hs|]. split; [exact Hc|]. cbn [w_out] in *.
      rewrite Ls in L. destruct (Nat.ltb_spec (length (w_out w)) 2064) as [L'|L']; [lia|].
      rewrite Ls. split; [reflexivity|]. rewrite O. split; [apply hdr_success|].
      split; [|rewrite overwrite_0, Ls; split].
      + unfold chunk_of. rewrite overwrite_0. unfold bs, cert_chain_resp_bytes. rewrite <- !app_assoc.
        rewrite slice_skip by (rewrite length_ok_hdr; lia). rewrite length_ok_hdr.
        rewrite slice_here by apply length_le_bytes. rewrite le4 by (unfold u32; lia).
        rewrite Nat2N.id. change 16 with (12 + 4). rewrite <- Codec.skip_skip.
        rewrite <- (length_ok_hdr cf) at 1. rewrite skipn_app, skipn_all, Nat.sub_diag, skipn_O. cbn [app].
        rewrite <- (length_le_bytes 4 (N.of_nat k)) at 1. rewrite skipn_app, skipn_all, Nat.sub_diag, skipn_O. cbn [app].
        rewrite firstn_app, Eb. replace (k - length buf) with 0 by lia. rewrite firstn_O, app_nil_r. reflexivity.
      + rewrite app_length, skipn_length, Ls. lia.
      + rewrite <- Ls at 1. rewrite skipn_app, skipn_all, Nat.sub_diag, skipn_O. cbn [app]. reflexivity.
    - apply write_out_inv in E as (Hs & Hc & _ & [(L & R & O)|(L & R & O)]); [discriminate|].
      split; [exact Hs|]. split; [exact Hc|]. cbn [w_out] in *. rewrite Ls in L.
      destruct (Nat.ltb_spec (length (w_out w)) 2064) as [L'|L']; [|lia].
      split; [|exact O]. congruence.
    - exfalso. revert E. apply nocrash_write_out.
  Qed.
End Requests.
