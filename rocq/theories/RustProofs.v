(** RustProofs.v -- the reference crypto back end computes functions, and keeps what it
    exported. *)
From Verif Require Import Base Errors Types StateOps Env Wire Instance Commands X509 X509Cert RustCrypto Lib Spec Exec Measure
  X509Spec X509Cmd KeyProofs CryptoUse ExportProofs.
Local Open Scope nat_scope.

(** ** Specification *)

Section Functions.
  Context {R : Type}.
  Variable pr : primitives R.
  Variable sig : sig_alg.
  Variable dig : digest_alg.

  Definition rust_hash (b : bytes) : digest :=
    match dig with AlgSha256 => DSha256 (pr_sha256 pr b) | AlgSha384 => DSha384 (pr_sha384 pr b) end.
  (** HKDF with the hash and the key size of the algorithm; the CDI has the digest as key
      material and info, and the label as salt; the secret key has the CDI as key
      material, the context as salt and the key label as info. *)
  Definition rust_kdf (salt ikm info : bytes) : bytes :=
    match (match sig with AlgEcdsa384 => pr_hkdf384 pr salt ikm info 48 | _ => pr_hkdf256 pr salt ikm info 32 end) with
    | Some b => b
    | None => []
    end.
  Definition rust_public (key : bytes) : pubkey :=
    match sig with
    | AlgEcdsa256 => let (a, b) := pr_point256 pr key in PkEcdsa256 a b
    | AlgEcdsa384 => let (a, b) := pr_point384 pr key in PkEcdsa384 a b
    | AlgMldsa87 => PkMldsa (pr_mldsa_public pr key)
    end.
  Definition rust_pub (d : digest) (l k x : bytes) : pubkey :=
    rust_public (rust_kdf x (rust_kdf l (digest_bytes d) (digest_bytes d)) k).
  (** [g] is the signature over [m] by the secret key of [pk]. *)
  Definition rust_ver (pk : pubkey) (m : sign_data) (g : signature) : Prop :=
    exists key,
      match m, g, sig with
      | SDDigest d, SigEcdsa256 r s, AlgEcdsa256 => pr_sign256 pr key (digest_bytes d) = Some (r, s)
      | (SDBuffer b | SDRaw b), SigEcdsa256 r s, AlgEcdsa256 => pr_sign256 pr key (pr_sha256 pr b) = Some (r, s)
      | SDDigest d, SigEcdsa384 r s, AlgEcdsa384 => pr_sign384 pr key (digest_bytes d) = Some (r, s)
      | (SDBuffer b | SDRaw b), SigEcdsa384 r s, AlgEcdsa384 => pr_sign384 pr key (pr_sha384 pr b) = Some (r, s)
      | SDMu mu, SigMldsa g, AlgMldsa87 => g = pr_mldsa_sign_mu pr key mu
      | (SDBuffer b | SDRaw b), SigMldsa g, AlgMldsa87 => g = pr_mldsa_sign pr key b
      | _, _, _ => False
      end /\ pk = rust_public key.

  (** A back end in operation: whatever was called since it was created. *)
  Definition operating (c : rust_c R) : Prop := exists seed, uses (rust_ops R pr sig dig) (rust_new R seed) c.
End Functions.

(** ** Proofs *)

Section Rust.
  Context {R : Type}.
  Variable pr : primitives R.
  Variable sig : sig_alg.
  Variable dig : digest_alg.
  Notation ops := (rust_ops R pr sig dig).

  Lemma rust_absorbs c l c' : absorbs ops c l c' -> forall h, rc_hasher c = Some h ->
    rc_hasher c' = Some (h ++ concat l).
  Proof.
    induction 1 as [c|c b l c1 c2 E A IH]; intros h Hh.
    - cbn [concat]. rewrite app_nil_r. exact Hh.
    - cbn [co_hash_update rust_ops] in E. unfold rc_update in E. rewrite Hh in E.
      apply (f_equal snd) in E. cbn [snd] in E. subst c1.
      rewrite (IH (h ++ b) eq_refl). cbn [concat]. rewrite app_assoc. reflexivity.
  Qed.

  Lemma cdi_key d l k x c c1 c2 : co_derive_cdi ops d l c = (inl tt, c1) -> co_derive_key_pair ops k x c1 = (inl tt, c2) ->
    exists cdi, hkdf_derive_cdi R pr sig d l = inl cdi /\ hkdf_get_priv_key R pr sig cdi k x = inl (rc_key c2).
  Proof.
    cbn [co_derive_cdi co_derive_key_pair rust_ops]. unfold rc_derive_cdi, rc_derive_key_pair. intros E1 E2.
    destruct (hkdf_derive_cdi R pr sig d l) as [cdi|e]; [|discriminate]. apply (f_equal snd) in E1. cbn [snd] in E1. subst c1.
    cbn [rc_cdi] in E2. exists cdi. split; [reflexivity|].
    destruct (hkdf_get_priv_key R pr sig cdi k x) as [key|e]; [|discriminate]. apply (f_equal snd) in E2. cbn [snd] in E2. subst c2. reflexivity.
  Qed.
  Lemma key_pub d l k x cdi key pk : hkdf_derive_cdi R pr sig d l = inl cdi -> hkdf_get_priv_key R pr sig cdi k x = inl key ->
    key_public R pr sig key = inl pk -> pk = rust_pub pr sig d l k x.
  Proof.
    unfold hkdf_derive_cdi, hkdf_get_priv_key, key_public, rust_pub, rust_public, rust_kdf. destruct sig.
    - destruct (pr_hkdf256 pr l _ _ 32) as [a|]; [|discriminate]. intros E. injection E as <-.
      destruct (pr_hkdf256 pr x a k 32) as [b|]; [|discriminate]. intros E. injection E as <-.
      destruct (pr_valid256 pr b); [|discriminate]. destruct (pr_point256 pr b). congruence.
    - destruct (pr_hkdf384 pr l _ _ 48) as [a|]; [|discriminate]. intros E. injection E as <-.
      destruct (pr_hkdf384 pr x a k 48) as [b|]; [|discriminate]. intros E. injection E as <-.
      destruct (pr_valid384 pr b); [|discriminate]. destruct (pr_point384 pr b). congruence.
    - destruct (pr_hkdf256 pr l _ _ 32) as [a|]; [|discriminate]. intros E. injection E as <-.
      destruct (pr_hkdf256 pr x a k 32) as [b|]; [|discriminate]. intros E. injection E as <-.
      destruct (Nat.eqb (length b) 32); [|discriminate]. congruence.
  Qed.
  Lemma signed_by key m g : key_sign R pr sig key m = inl g ->
    exists pk, key_public R pr sig key = inl pk /\ rust_ver pr sig pk m g.
  Proof.
    unfold key_sign, key_public, rust_ver, rust_public. destruct sig.
    - destruct (pr_valid256 pr key); [|discriminate]. intros H. destruct (pr_point256 pr key) as [a b] eqn:Ep. exists (PkEcdsa256 a b).
      split; [reflexivity|]. exists key. rewrite Ep. split; [|reflexivity]. unfold ecdsa256_sign, ecdsa_prehash in H.
      destruct m; try discriminate; destruct (pr_sign256 pr key _) as [[r s]|]; try discriminate; injection H as <-; reflexivity.
    - destruct (pr_valid384 pr key); [|discriminate]. intros H. destruct (pr_point384 pr key) as [a b] eqn:Ep. exists (PkEcdsa384 a b).
      split; [reflexivity|]. exists key. rewrite Ep. split; [|reflexivity]. unfold ecdsa384_sign, ecdsa_prehash in H.
      destruct m; try discriminate; destruct (pr_sign384 pr key _) as [[r s]|]; try discriminate; injection H as <-; reflexivity.
    - destruct (Nat.eqb (length key) 32); [|discriminate]. intros H. exists (PkMldsa (pr_mldsa_public pr key)).
      split; [reflexivity|]. exists key. split; [|reflexivity]. unfold mldsa_sign in H.
      destruct m; try discriminate; injection H as <-; reflexivity.
  Qed.

  Theorem rust_faithful : faithful ops (rust_hash pr dig) (rust_pub pr sig) (rust_ver pr sig).
  Proof.
    split.
    - intros c c0 c1 c2 c3 l d E0 E1 A E. cbn [co_hash_initialize rust_ops] in E1. unfold rc_initialize in E1.
      apply (f_equal snd) in E1. cbn [snd] in E1. subst c1. apply rust_absorbs with (h := []) in A; [|reflexivity]. cbn [app] in A.
      cbn [co_hash_finish rust_ops] in E. unfold rc_finish in E. rewrite A in E. unfold rust_hash.
      apply (f_equal fst) in E. cbn [fst] in E.
      destruct dig; [destruct (Nat.eqb _ 32)|destruct (Nat.eqb _ 48)]; try discriminate; congruence.
    - intros c c1 c2 c3 d l k x pk E1 E2 E3. destruct (cdi_key _ _ _ _ _ _ _ E1 E2) as (cdi & H1 & H2).
      cbn [co_signer_public_key rust_ops] in E3. apply (f_equal fst) in E3. cbn [fst] in E3. eapply key_pub; eauto.
    - intros c c1 c2 c3 d l k x m g E1 E2 E3. destruct (cdi_key _ _ _ _ _ _ _ E1 E2) as (cdi & H1 & H2).
      cbn [co_signer_sign rust_ops] in E3. apply (f_equal fst) in E3. cbn [fst] in E3.
      apply signed_by in E3 as (pk & Ep & V). rewrite (key_pub _ _ _ _ _ _ _ H1 H2 Ep) in V. exact V.
  Qed.

  Theorem rust_keys_fit cf : sig = profile_alg (prof cf) -> keys_fit cf ops.
  Proof.
    intros E c pk c' H. cbn [co_signer_public_key rust_ops] in H. apply (f_equal fst) in H. cbn [fst] in H.
    unfold key_public in H. rewrite E in H. destruct (prof cf); cbn [profile_alg] in H.
    - destruct (pr_valid256 _ _); [|discriminate]. destruct (pr_point256 _ _). injection H as <-. exact I.
    - destruct (pr_valid384 _ _); [|discriminate]. destruct (pr_point384 _ _). injection H as <-. exact I.
    - destruct (Nat.eqb _ _); [|discriminate]. injection H as <-. exact I.
  Qed.

  (** ** Exported CDIs *)

  Lemma key_pair_slots k x c r c' : rc_derive_key_pair R pr sig k x c = (r, c') -> rc_slots c' = rc_slots c.
  Proof.
    unfold rc_derive_key_pair. destruct (hkdf_get_priv_key _ _ _ _ _ _); intros E; apply (f_equal snd) in E; cbn [snd] in E; subst; reflexivity.
  Qed.
  Lemma call_slots c c' : call ops c c' ->
    rc_slots c' = rc_slots c \/
    (length (rc_slots c) < max_cdi_handles /\ exists p, rc_slots c' = rc_slots c ++ [p]).
  Proof.
    intros H. destruct H as [n c r c' E|c r c' E|c r c' E|b c r c' E|c r c' E|d i c r c' E|l i c r c' E|m c r c' E|c r c' E|d i c r c' E|h l i c r c' E|m c r c' E];
      cbn [co_rand_bytes co_hasher co_hash_initialize co_hash_update co_hash_finish co_derive_cdi co_derive_key_pair co_signer_sign
           co_signer_public_key co_derive_exported_cdi co_derive_key_pair_exported co_sign_with_alias rust_ops] in E;
      try (left; apply (f_equal snd) in E; cbn [snd] in E; subst; reflexivity).
    - left. unfold rc_rand_bytes in E. destruct (pr_fill pr n (rc_rng c)). apply (f_equal snd) in E; cbn [snd] in E; subst; reflexivity.
    - left. unfold rc_update in E. destruct (rc_hasher c); apply (f_equal snd) in E; cbn [snd] in E; subst; reflexivity.
    - left. unfold rc_finish in E. destruct (rc_hasher c); apply (f_equal snd) in E; cbn [snd] in E; subst; reflexivity.
    - left. unfold rc_derive_cdi in E. destruct (hkdf_derive_cdi _ _ _ _ _); apply (f_equal snd) in E; cbn [snd] in E; subst; reflexivity.
    - left. eapply key_pair_slots. exact E.
    - unfold rc_derive_exported_cdi in E. destruct (hkdf_derive_cdi _ _ _ _ _) as [cdi|e].
      2:{ left. apply (f_equal snd) in E; cbn [snd] in E; subst; reflexivity. }
      destruct (existsb _ _). { left. apply (f_equal snd) in E; cbn [snd] in E; subst; reflexivity. }
      destruct (Nat.leb_spec max_cdi_handles (length (rc_slots c))) as [L|L].
      { left. apply (f_equal snd) in E; cbn [snd] in E; subst; reflexivity. }
      right. split; [exact L|]. unfold rc_rand_bytes in E. destruct (pr_fill pr 32 (rc_rng c)) as [b g].
      apply (f_equal snd) in E; cbn [snd] in E; subst. eexists. reflexivity.
    - left. unfold rc_derive_key_pair_exported in E. destruct (find _ _) as [[cdi hh]|].
      + apply key_pair_slots in E. exact E.
      + apply (f_equal snd) in E; cbn [snd] in E; subst; reflexivity.
  Qed.
  Lemma operating_slots c : operating pr sig dig c -> length (rc_slots c) <= 1.
  Proof.
    intros (seed & U). refine (uses_keeps ops (fun c => length (rc_slots c) <= 1) _ _ _ U _); [|cbn; lia].
    intros a b H L. apply call_slots in H as [->|(L' & p & ->)]; [exact L|]. unfold max_cdi_handles in L'. rewrite app_length. cbn [length]. lia.
  Qed.
  Lemma operating_uses c c' : operating pr sig dig c -> uses ops c c' -> operating pr sig dig c'.
  Proof. intros (seed & U) U'. exists seed. eapply uses_trans; eauto. Qed.
  Lemma full_stays c c' p : rc_slots c = [p] -> uses ops c c' -> rc_slots c' = [p].
  Proof.
    intros E U. refine (uses_keeps ops (fun c => rc_slots c = [p]) _ _ _ U E).
    intros a b H L. apply call_slots in H as [->|(L' & q & ->)]; [exact L|]. rewrite L in L'. cbn [length] in L'. unfold max_cdi_handles in L'. lia.
  Qed.

  Lemma issue d l c h c' : co_derive_exported_cdi ops d l c = (inl h, c') ->
    exists cdi, hkdf_derive_cdi R pr sig d l = inl cdi /\ rc_slots c = [] /\ rc_slots c' = [(cdi, h)] /\ to_buf 32 h = h.
  Proof.
    cbn [co_derive_exported_cdi rust_ops]. unfold rc_derive_exported_cdi. intros E.
    destruct (hkdf_derive_cdi _ _ _ _ _) as [cdi|e]; [|discriminate]. exists cdi. split; [reflexivity|].
    destruct (existsb _ _); [discriminate|].
    destruct (Nat.leb_spec max_cdi_handles (length (rc_slots c))) as [L|L]; [discriminate|]. unfold max_cdi_handles in L.
    destruct (rc_slots c) as [|p ps] eqn:Es; [|cbn [length] in L; lia]. split; [reflexivity|].
    unfold rc_rand_bytes in E. destruct (pr_fill pr 32 (rc_rng c)) as [b g].
    pose proof (f_equal fst E) as E1. apply (f_equal snd) in E. cbn [fst snd] in E, E1. subst c'. cbn [rc_slots].
    assert (h = to_buf 32 b) by congruence. subst h. rewrite Es. split; [reflexivity|].
    apply to_buf_id; [apply length_to_buf|apply all_bytes_to_buf].
  Qed.
  Lemma refuse d l c p : rc_slots c = [p] ->
    co_derive_exported_cdi ops d l c =
    (inr (match hkdf_derive_cdi R pr sig d l with
          | inr e => e
          | inl cdi => if bytes_eqb (fst p) cdi then CEExportedCdiHandleDuplicateCdi else CEExportedCdiHandleLimitExceeded
          end), c).
  Proof.
    intros E. cbn [co_derive_exported_cdi rust_ops]. unfold rc_derive_exported_cdi. rewrite E.
    destruct (hkdf_derive_cdi _ _ _ _ _) as [cdi|e]; [|reflexivity]. cbn [existsb length]. rewrite orb_false_r.
    destruct (bytes_eqb (fst p) cdi); reflexivity.
  Qed.
  Lemma resolve cdi h k x c : rc_slots c = [(cdi, h)] ->
    co_derive_key_pair_exported ops h k x c =
    match hkdf_get_priv_key R pr sig cdi k x with
    | inl key => (inl tt, mkRust (rc_rng c) (rc_slots c) (rc_hasher c) cdi key)
    | inr e => (inr e, mkRust (rc_rng c) (rc_slots c) (rc_hasher c) cdi (rc_key c))
    end.
  Proof.
    intros E. cbn [co_derive_key_pair_exported rust_ops]. unfold rc_derive_key_pair_exported. rewrite E. cbn [find snd].
    rewrite bytes_eqb_refl. unfold rc_derive_key_pair. cbn [rc_cdi rc_rng rc_slots rc_hasher rc_key].
    destruct (hkdf_get_priv_key _ _ _ _ _ _); reflexivity.
  Qed.
  Lemma unknown h h' cdi k x c : rc_slots c = [(cdi, h)] -> h' <> h ->
    co_derive_key_pair_exported ops h' k x c = (inr CEInvalidExportedCdiHandle, c).
  Proof.
    intros E N. cbn [co_derive_key_pair_exported rust_ops]. unfold rc_derive_key_pair_exported. rewrite E. cbn [find snd].
    rewrite (proj2 (bytes_eqb_neq h h')) by congruence. reflexivity.
  Qed.
  Lemma unknown_all h k x c : rc_slots c = [] -> co_derive_key_pair_exported ops h k x c = (inr CEInvalidExportedCdiHandle, c).
  Proof. intros E. cbn [co_derive_key_pair_exported rust_ops]. unfold rc_derive_key_pair_exported. rewrite E. reflexivity. Qed.

  (** Every slot comes from an export. *)
  Definition issued (h : bytes) (c : rust_c R) : Prop :=
    exists d l c0 c1, operating pr sig dig c0 /\ co_derive_exported_cdi ops d l c0 = (inl h, c1) /\ uses ops c1 c.
  Lemma operating_issued c : operating pr sig dig c -> rc_slots c = [] \/ exists cdi h, rc_slots c = [(cdi, h)] /\ issued h c.
  Proof.
    intros (seed & U).
    refine (proj2 (uses_keeps ops (fun c => operating pr sig dig c /\ (rc_slots c = [] \/ exists cdi h, rc_slots c = [(cdi, h)] /\ issued h c)) _ _ _ U _)).
    2:{ split; [exists seed; constructor|left; reflexivity]. }
    clear c U. intros a b H (O & K). split; [eapply operating_uses; [exact O|apply uses_one, H]|].
    destruct K as [K|(cdi & h & K & d & l & c0 & c1 & O0 & E & U)].
    - pose proof H as H0. inversion H as [n c r c' E|c r c' E|c r c' E|b0 c r c' E|c r c' E|d i c r c' E|l i c r c' E|m c r c' E|c r c' E|d i c r c' E|h l i c r c' E|m c r c' E]; subst c c'.
      10:{ destruct r as [h|e].
           - right. destruct (issue _ _ _ _ _ E) as (cdi & _ & _ & Hs & _). exists cdi, h. split; [exact Hs|]. exists d, i, a, b. split; [exact O|]. split; [exact E|constructor].
           - left. revert E. cbn [co_derive_exported_cdi rust_ops]. unfold rc_derive_exported_cdi.
             destruct (hkdf_derive_cdi _ _ _ _ _); [destruct (existsb _ _); [|destruct (Nat.leb _ _)]|]; try (intros E; apply (f_equal snd) in E; cbn [snd] in E; subst b; exact K).
             unfold rc_rand_bytes. destruct (pr_fill pr 32 (rc_rng a)). discriminate. }
      all: left; rewrite <- K; cbn [co_rand_bytes co_hasher co_hash_initialize co_hash_update co_hash_finish co_derive_cdi co_derive_key_pair co_signer_sign
           co_signer_public_key co_derive_exported_cdi co_derive_key_pair_exported co_sign_with_alias rust_ops] in E;
           try (apply (f_equal snd) in E; cbn [snd] in E; subst; reflexivity).
      + unfold rc_rand_bytes in E. destruct (pr_fill pr n (rc_rng a)). apply (f_equal snd) in E; cbn [snd] in E; subst; reflexivity.
      + unfold rc_update in E. destruct (rc_hasher a); apply (f_equal snd) in E; cbn [snd] in E; subst; reflexivity.
      + unfold rc_finish in E. destruct (rc_hasher a); apply (f_equal snd) in E; cbn [snd] in E; subst; reflexivity.
      + unfold rc_derive_cdi in E. destruct (hkdf_derive_cdi _ _ _ _ _); apply (f_equal snd) in E; cbn [snd] in E; subst; reflexivity.
      + eapply key_pair_slots. exact E.
      + unfold rc_derive_key_pair_exported in E. rewrite K in E. cbn [find] in E. apply (f_equal snd) in E; cbn [snd] in E; subst; reflexivity.
    - right. exists cdi, h. split; [eapply full_stays; [exact K|apply uses_one, H]|]. exists d, l, c0, c1. split; [exact O0|]. split; [exact E|].
      eapply uses_trans; [exact U|apply uses_one, H].
  Qed.

  (** The key named when the CDI was exported is the key the handle stands for ever
      after. *)
  Lemma exported_for_good d l k x h pk c0 c3 c : exported_key ops d l k x h pk c0 c3 -> uses ops c3 c ->
    pk = rust_pub pr sig d l k x /\ to_buf 32 h = h /\
    exists c', co_derive_key_pair_exported ops h k x c = (inl tt, c') /\ co_signer_public_key ops c' = (inl pk, c').
  Proof.
    intros (c1 & c2 & E1 & E2 & E3) U. destruct (issue _ _ _ _ _ E1) as (cdi & H1 & _ & Hs & Hb).
    rewrite Hb in E2. rewrite (resolve _ _ _ _ _ Hs) in E2.
    destruct (hkdf_get_priv_key R pr sig cdi k x) as [key|e] eqn:H2; [|discriminate].
    apply (f_equal snd) in E2. cbn [snd] in E2. subst c2. cbn [co_signer_public_key rust_ops] in E3.
    pose proof (f_equal fst E3) as E4. apply (f_equal snd) in E3. cbn [fst snd] in E3, E4. cbn [rc_key] in E4.
    split; [eapply key_pub; eauto|]. split; [exact Hb|].
    assert (Hc : rc_slots c = [(cdi, h)]). { eapply full_stays; [|exact U]. subst c3. exact Hs. }
    rewrite (resolve _ _ _ _ _ Hc), H2. eexists. split; [reflexivity|]. cbn [co_signer_public_key rust_ops rc_key]. rewrite E4. reflexivity.
  Qed.
End Rust.
