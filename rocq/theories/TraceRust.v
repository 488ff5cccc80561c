(** TraceRust.v -- which calls of a command can fail with the reference crypto back end. *)
From Verif Require Import Base Errors Types StateOps Env Wire Instance Commands X509 X509Cert RustCrypto Lib Spec Exec Steps X509Cmd Trace TraceCmds.
Open Scope N_scope.

(** ** Specification *)

Section Primitives.
  Context {R : Type}.
  Variable pr : primitives R.
  Variable sig : sig_alg.
  Variable dig : digest_alg.

  (** HKDF with the hash and the key size of the algorithm. *)
  Definition pr_kdf (salt ikm info : bytes) : option bytes :=
    match sig with AlgEcdsa384 => pr_hkdf384 pr salt ikm info 48 | _ => pr_hkdf256 pr salt ikm info 32 end.
  (** Secret keys the crates accept. *)
  Definition pr_usable (key : bytes) : bool :=
    match sig with AlgEcdsa256 => pr_valid256 pr key | AlgEcdsa384 => pr_valid384 pr key | AlgMldsa87 => Nat.eqb (length key) 32 end.
  Definition bad_key : crypto_error := match sig with AlgMldsa87 => rc_mldsa_error | _ => rc_ecdsa_error end.
  (** What an algorithm does not sign: ECDSA no external mu, ML-DSA no digest. *)
  Definition unsignable (m : sign_data) : bool :=
    match sig, m with
    | AlgEcdsa256, SDMu _ | AlgEcdsa384, SDMu _ | AlgMldsa87, SDDigest _ => true
    | _, _ => false
    end.
  (** What is expected of the crates and the artifacts: hashes have their size, HKDF
      yields bytes of the asked length, ECDSA signs with each key it accepted and with the
      alias key, which is there. It is not expected that ECDSA accepts each secret. *)
  Record sound : Prop := {
    so_sha : match dig with
             | AlgSha256 => forall b, length (pr_sha256 pr b) = 32%nat
             | AlgSha384 => forall b, length (pr_sha384 pr b) = 48%nat
             end;
    so_kdf : forall salt ikm info, exists k, pr_kdf salt ikm info = Some k /\ (sig = AlgMldsa87 -> length k = 32%nat);
    so_sign : forall k d, pr_usable k = true ->
                match sig with AlgEcdsa256 => pr_sign256 pr k d <> None | AlgEcdsa384 => pr_sign384 pr k d <> None | AlgMldsa87 => True end;
    so_alias : match sig with
               | AlgEcdsa256 => exists k, pr_alias256 pr = Some k /\ forall d, pr_sign256 pr k d <> None
               | AlgEcdsa384 => exists k, pr_alias384 pr = Some k /\ forall d, pr_sign384 pr k d <> None
               | AlgMldsa87 => exists k, pr_alias_mldsa pr = Some k
               end
  }.

  (** Why a call fails that was made in a command started with the exported CDIs
      [slots]: the derived secret is none, a CDI was exported before, or the algorithm
      does not sign such messages. *)
  Definition call_fault (slots : list (bytes * bytes)) (x : event) (e : crypto_error) : Prop :=
    match x with
    | EvPublic _ => e = bad_key /\ exists salt ikm info k, pr_kdf salt ikm info = Some k /\ pr_usable k = false
    | EvSign m _ =>
        (e = bad_key /\ exists salt ikm info k, pr_kdf salt ikm info = Some k /\ pr_usable k = false) \/
        (e = CEMismatchedAlgorithm /\ unsignable m = true)
    | EvExported _ _ _ => (e = CEExportedCdiHandleDuplicateCdi \/ e = CEExportedCdiHandleLimitExceeded) /\ slots <> []
    | EvAlias m _ => e = CEMismatchedAlgorithm /\ unsignable m = true
    | _ => False
    end.

  (** ** Proof *)

  Notation ops := (rust_ops R pr sig dig).
  Variable So : sound.

  Lemma cdi_total m i : exists k, hkdf_derive_cdi R pr sig m i = inl k.
  Proof.
    destruct (so_kdf So i (digest_bytes m) (digest_bytes m)) as (k & E & _). unfold hkdf_derive_cdi. unfold pr_kdf in E.
    destruct sig; rewrite E; eauto.
  Qed.
  Lemma key_total cdi l i : exists k, hkdf_get_priv_key R pr sig cdi l i = inl k /\ pr_kdf i cdi l = Some k /\ (sig = AlgMldsa87 -> length k = 32%nat).
  Proof.
    destruct (so_kdf So i cdi l) as (k & E & L). exists k. split; [|auto]. unfold hkdf_get_priv_key. unfold pr_kdf in E.
    destruct sig; rewrite E; reflexivity.
  Qed.
  Lemma sign_fails key m e : key_sign R pr sig key m = inr e ->
    (e = bad_key /\ pr_usable key = false) \/ (e = CEMismatchedAlgorithm /\ unsignable m = true).
  Proof.
    pose proof (fun d => so_sign So key d) as S. unfold key_sign, bad_key, pr_usable, unsignable, ecdsa256_sign, ecdsa384_sign, ecdsa_prehash, mldsa_sign in *.
    destruct sig.
    - destruct (pr_valid256 pr key); [|intros H; injection H as <-; auto].
      destruct m; try (intros H; injection H as <-; auto); specialize (S (digest_bytes d)) || specialize (S (pr_sha256 pr b));
        destruct (pr_sign256 pr key _) as [[? ?]|]; try discriminate; destruct (S eq_refl eq_refl).
    - destruct (pr_valid384 pr key); [|intros H; injection H as <-; auto].
      destruct m; try (intros H; injection H as <-; auto); specialize (S (digest_bytes d)) || specialize (S (pr_sha384 pr b));
        destruct (pr_sign384 pr key _) as [[? ?]|]; try discriminate; destruct (S eq_refl eq_refl).
    - destruct (Nat.eqb (length key) 32); [|intros H; injection H as <-; auto].
      destruct m; try discriminate. intros H. injection H as <-. auto.
  Qed.
  Lemma public_fails key e : key_public R pr sig key = inr e -> e = bad_key /\ pr_usable key = false.
  Proof.
    unfold key_public, bad_key, pr_usable. destruct sig.
    - destruct (pr_valid256 pr key); [destruct (pr_point256 pr key); discriminate|]. intros H; injection H as <-; auto.
    - destruct (pr_valid384 pr key); [destruct (pr_point384 pr key); discriminate|]. intros H; injection H as <-; auto.
    - destruct (Nat.eqb (length key) 32); [discriminate|]. intros H; injection H as <-; auto.
  Qed.
  Lemma alias_fails m e : alias_sign R pr sig m = inr e -> e = CEMismatchedAlgorithm /\ unsignable m = true.
  Proof.
    pose proof (so_alias So) as S. unfold alias_sign, unsignable, ecdsa256_sign, ecdsa384_sign, ecdsa_prehash, mldsa_sign in *. destruct sig.
    - destruct S as (k & -> & S). destruct m; try (intros H; injection H as <-; auto); specialize (S (digest_bytes d)) || specialize (S (pr_sha256 pr b));
        destruct (pr_sign256 pr k _) as [[? ?]|]; try discriminate; destruct (S eq_refl).
    - destruct S as (k & -> & S). destruct m; try (intros H; injection H as <-; auto); specialize (S (digest_bytes d)) || specialize (S (pr_sha384 pr b));
        destruct (pr_sign384 pr k _) as [[? ?]|]; try discriminate; destruct (S eq_refl).
    - destruct S as (k & ->). destruct m; try discriminate. intros H. injection H as <-. auto.
  Qed.

  (** What holds of the back end in a stage. *)
  Definition derived (key : bytes) : Prop := exists salt ikm info, pr_kdf salt ikm info = Some key.
  Definition standing (b : bool) (slots : list (bytes * bytes)) (sg : stage) (c : rust_c R) : Prop :=
    match sg_open sg with
    | OHash => rc_hasher c <> None
    | OExported h => exists cdi, find (fun p => bytes_eqb (snd p) h) (rc_slots c) = Some (cdi, h)
    | OKey => derived (rc_key c)
    | _ => True
    end /\
    (b = true -> sg_public sg = None -> (forall h, sg_open sg <> OExported h) -> sg_open sg <> OKey -> rc_slots c = slots) /\
    (b = false -> rc_slots c = slots).
  Definition is_sign (x : event) : bool := match x with EvSign _ _ => true | _ => false end.
  Definition is_export (x : event) : bool := match x with EvExported _ _ _ | EvKeyExported _ _ _ _ => true | _ => false end.
  Ltac outs E := apply (f_equal snd) in E; cbn [snd] in E; subst.
  Ltac ops_in E := cbn [makes co_rand_bytes co_hasher co_hash_initialize co_hash_update co_hash_finish co_derive_cdi co_derive_key_pair co_signer_sign
           co_signer_public_key co_derive_exported_cdi co_derive_key_pair_exported co_sign_with_alias rust_ops] in E.

  (** A call that succeeds. *)
  Lemma standing_step b slots s x s' c c' : standing b slots s c -> makes ops x c c' -> allowed s x s' -> event_error x = None ->
    (if b then is_sign x = false else is_export x = false) -> standing b slots s' c'.
  Proof.
    intros (S1 & S2 & S3) M A E B. destruct A; ops_in M; cbn [sg_open sg_public opens note is_sign is_export] in *.
    all: match goal with O : sg_open ?s = _ |- _ => rewrite O in S1, S2 end; cbn [event_error] in E.
    all: try first [destruct b; [discriminate B|]|destruct b; [|discriminate B]].
    - unfold rc_rand_bytes in M. destruct (pr_fill pr 16 (rc_rng c)). outs M. unfold standing. rewrite H. cbn [rc_slots]. auto.
    - outs M. split; [exact I|]. split; auto. intros X Y _ _. apply S2; auto; discriminate.
    - unfold rc_initialize in M. outs M. split; [discriminate|]. split; auto. intros X Y _ _. apply S2; auto; discriminate.
    - unfold rc_update in M. unfold standing. rewrite H. destruct (rc_hasher c) as [h|]; outs M; [|contradiction]. cbn [rc_hasher rc_slots]. split; [discriminate|auto].
    - unfold rc_finish in M. unfold standing. destruct (rc_hasher c) as [h|]; outs M; cbn [rc_slots]; (split; [exact I|]; split; auto; intros X Y _ _; apply S2; auto; discriminate).
    - unfold rc_derive_cdi in M. unfold standing. destruct (hkdf_derive_cdi R pr sig d i); outs M; cbn [rc_slots]; (split; [exact I|]; split; auto; intros X Y _ _; apply S2; auto; discriminate).
    - unfold rc_derive_key_pair in M. unfold standing. cbn [sg_open opens].
      destruct (key_total (rc_cdi c) l i) as (k & Ek & K & _). rewrite Ek in M. outs M. cbn [rc_slots rc_key].
      split; [exists i, (rc_cdi c), l; exact K|]. split; [|exact S3]. intros X Y _ Z. destruct (Z eq_refl).
    - unfold rc_derive_exported_cdi in M. destruct r as [hd|]; [|discriminate]. specialize (H2 _ eq_refl). subst h.
      destruct (hkdf_derive_cdi R pr sig d i) as [cdi|]; [|discriminate]. destruct (existsb _ _); [discriminate|]. destruct (Nat.leb _ _) eqn:L; [discriminate|].
      unfold rc_rand_bytes in M. destruct (pr_fill pr 32 (rc_rng c)) as [bb g]. pose proof (f_equal fst M) as M1. outs M. cbn [fst] in M1.
      injection M1 as <-. unfold standing. cbn [sg_open opens rc_slots]. unfold max_cdi_handles in L. apply Nat.leb_gt in L.
      assert (Z : rc_slots c = []) by (destruct (rc_slots c); [reflexivity|cbn [length] in L; lia]). rewrite Z. cbn [app find snd].
      rewrite (to_buf_id 32 (to_buf 32 bb)) by first [apply length_to_buf|apply all_bytes_to_buf].
      split; [exists cdi; rewrite bytes_eqb_refl; reflexivity|]. split; [|discriminate]. intros X Y Y' _. destruct (Y' _ eq_refl).
    - unfold rc_derive_key_pair_exported in M. destruct S1 as (cdi & S1). rewrite S1 in M. unfold rc_derive_key_pair in M. cbn [rc_cdi] in M.
      destruct (key_total cdi l i) as (k & Ek & K & _). rewrite Ek in M. outs M. unfold standing. cbn [rc_slots rc_key sg_open opens].
      split; [exists i, cdi, l; exact K|]. split; [|discriminate]. intros X Y _ Z. destruct (Z eq_refl).
    - outs M. unfold standing. cbn [sg_open sg_public]. split; [exact I|]. split; [discriminate|exact S3].
    - outs M. unfold standing. cbn [sg_open sg_public]. split; [exact I|]. split; [discriminate|exact S3].
    - outs M. unfold standing. cbn [sg_open sg_public]. split; [exact I|]. split; [|exact S3]. intros X Y _ _. apply S2; auto; discriminate.
  Qed.

  (** A call that fails. *)
  Lemma standing_fault b slots s x s' c c' e : standing b slots s c -> makes ops x c c' -> allowed s x s' -> event_error x = Some e ->
    (if b then is_sign x = false else is_export x = false) -> call_fault slots x e.
  Proof.
    intros (S1 & S2 & S3) M A E B. destruct A; ops_in M; cbn [event_error call_fault is_sign is_export] in *.
    all: match goal with O : sg_open ?s = _ |- _ => rewrite O in S1, S2 end; cbn [event_error] in E.
    all: try first [destruct b; [discriminate B|]|destruct b; [|discriminate B]].
    all: destruct r as [v|e0]; [discriminate E|injection E as ->].
    - unfold rc_rand_bytes in M. destruct (pr_fill pr 16 (rc_rng c)). discriminate.
    - discriminate.
    - discriminate.
    - unfold rc_update in M. destruct (rc_hasher c); [discriminate|contradiction].
    - unfold rc_finish in M. destruct (rc_hasher c) as [h|]; [|contradiction]. pose proof (so_sha So) as L.
      destruct dig; rewrite L in M; discriminate.
    - unfold rc_derive_cdi in M. destruct (cdi_total d i) as [k K]. rewrite K in M. discriminate.
    - unfold rc_derive_key_pair in M. destruct (key_total (rc_cdi c) l i) as (k & Ek & _). rewrite Ek in M. discriminate.
    - unfold rc_derive_exported_cdi in M. destruct (cdi_total d i) as [k K]. rewrite K in M.
      rewrite (S2 eq_refl H1) in M by discriminate. destruct slots as [|p ps].
      + cbn [existsb length Nat.leb max_cdi_handles] in M. unfold rc_rand_bytes in M. destruct (pr_fill pr 32 (rc_rng c)). discriminate.
      + split; [|discriminate]. destruct (existsb _ _); [left; congruence|]. cbn [length Nat.leb max_cdi_handles] in M. right. congruence.
    - unfold rc_derive_key_pair_exported in M. destruct S1 as (cdi & S1). rewrite S1 in M. unfold rc_derive_key_pair in M. cbn [rc_cdi] in M.
      destruct (key_total cdi l i) as (k & Ek & _). rewrite Ek in M. discriminate.
    - apply (f_equal fst) in M. cbn [fst] in M. apply public_fails in M as [-> M]. destruct S1 as (x & y & z & S1). split; [reflexivity|]. exists x, y, z, (rc_key c). auto.
    - apply (f_equal fst) in M. cbn [fst] in M. apply sign_fails in M as [[-> M]|M]; [left|right; exact M].
      destruct S1 as (x & y & z & S1). split; [reflexivity|]. exists x, y, z, (rc_key c). auto.
    - apply (f_equal fst) in M. cbn [fst] in M. apply alias_fails in M. exact M.
  Qed.

  Lemma run_fault b slots t : forall s s' c c' e, standing b slots s c -> performs ops c t c' -> orderly s t s' -> broken t e ->
    Forall (fun x => if b then is_sign x = false else is_export x = false) t ->
    exists x, In x t /\ event_error x = Some e /\ call_fault slots x e.
  Proof.
    induction t as [|x t IH]; intros s s' c c' e S M O B F.
    - destruct B as (t0 & x & E & _). destruct t0; discriminate.
    - inversion M as [|? ? ? c1 ? M1 M2]; subst. inversion O as [|? ? ? s1 ? O1 O2]; subst. inversion F as [|? ? F1 F2]; subst.
      destruct B as (t0 & y & E & K & Y). destruct t0 as [|x0 t0].
      + injection E as -> ->. exists y. split; [left; reflexivity|]. split; [exact Y|]. eapply standing_fault; eauto.
      + injection E as -> ->. inversion K as [|? ? K1 K2]; subst.
        destruct (IH s1 s' c1 c' e) as (z & Z1 & Z2 & Z3); [eapply standing_step; eauto|auto|auto|exists t0, y; auto|exact F2|].
        exists z. split; [right; exact Z1|auto].
  Qed.

  Theorem command_faults cf {P} (po : platform_ops P) cmd loc w x w' :
    exec_command cf _ P ops po (x509_gen cf _ P ops po) cmd loc w = (Err (CryptoErr x), w') ->
    exists t sg, performs ops (w_c w) t (w_c w') /\ Forall (permitted cf cmd) t /\ orderly stage0 t sg /\
      ((exists y, In y t /\ event_error y = Some x /\ call_fault (rc_slots (w_c w)) y x) \/
       clean t /\ exists pk, sg_public sg = Some pk /\ (x = CESize \/ x = CEMismatchedAlgorithm /\ alg_matches sig pk = false)).
  Proof.
    intros H. apply (command_traced cf ops po cmd loc) in H as (t & sg & H1 & H2 & H3 & H4). exists t, sg.
    split; [exact H1|]. split; [exact H2|]. split; [exact H3|]. destruct H4 as [H4|[H4 H5]].
    - left. destruct (match cmd with CmdDeriveContext _ => true | _ => false end) eqn:D.
      + apply (run_fault true (rc_slots (w_c w)) t stage0 sg (w_c w) (w_c w')); auto.
        * split; [exact I|]. split; auto.
        * eapply Forall_impl; [|exact H2]. intros y Y. destruct cmd; try discriminate. destruct y; try reflexivity. contradiction.
      + apply (run_fault false (rc_slots (w_c w)) t stage0 sg (w_c w) (w_c w')); auto.
        * split; [exact I|]. split; auto.
        * eapply Forall_impl; [|exact H2]. intros y Y. destruct cmd; try discriminate; destruct y; try reflexivity; cbn in Y; try contradiction.
    - right. split; [exact H4|]. destruct H5 as (pk & Y & [->|(-> & c & Y2)]); exists pk; auto.
  Qed.
End Primitives.
