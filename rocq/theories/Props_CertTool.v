(** Props_CertTool.v -- C55: what the certificate size tool reports. *)
From Verif Require Import Base Errors Types StateOps Env Wire Instance Commands RespBuf Response X509 X509Cert RustCrypto DefaultPlatform Simulator CertTool
  Lib Spec Der X509Run X509Spec X509Bytes X509Size Trace TraceCmds TraceRust RefFaults ExactSize RefSize CertToolProofs
  Props_Reference Props_Harness Toy.
Open Scope N_scope.

(** The tool measures nothing for a count that is 0 or above MAX_HANDLES, in any build. *)
Theorem C55_count :
  forall cf R (pr : primitives R) chain issuer serial ski a n cert seed,
    measure_cert_csr R pr chain issuer serial ski cf a n cert seed = BadCount <-> n = 0%nat \/ (max_handles cf < n)%nat.
Proof.
  intros. unfold measure_cert_csr. destruct (Nat.eqb_spec n 0) as [->|N]; cbn [orb]; [tauto|].
  destruct (Nat.ltb_spec (max_handles cf) n) as [L|L]; [tauto|]. split; [|intros [X|X]; lia].
  destruct (tool_backend cf a) as [b|]; [|discriminate]. destruct (tool_profile cf a) as [p|]; [|discriminate].
  unfold execute_and_measure. destruct (dpe_new _ _ _ _ _ _) as [[u|e|k] w]; try discriminate.
  assert (NB : forall k i v m, tool_contexts R pr chain issuer serial ski (with_profile p cf) b cert k i v = inl m -> m <> BadCount).
  { induction k as [|k IH]; intros i v m; cbn [tool_contexts]; [discriminate|].
    destruct (tool_execute _ _ _ _ _ _ _ _ _ v) as [[r|e|q] v']; [apply IH|congruence|congruence]. }
  destruct (tool_contexts _ _ _ _ _ _ _ _ _ _ _ _) as [m|w'] eqn:E; [intros ->; destruct (NB _ _ _ _ E eq_refl)|].
  unfold tool_measure_key. destruct (tool_execute _ _ _ _ _ _ _ _ _ w') as [[r|e|q] v']; try discriminate.
  destruct r; try discriminate. destruct (response_cert _); discriminate.
Qed.
Print Assumptions C55_count.

(** The octets of a certificate or request of the tool for [n] contexts: X.690 applied
    to the contents, for signature elements of [b] and [o] octets. *)
Definition size_of (p : profile) (issuer serial : bytes) (cert : bool) (n : nat) (b o : N) : N :=
  let u := match p with P256Sha256 => 32 | _ => 48 end in
  if cert then cert_octets p (len issuer) u (tool_chain p n) b
  else request_octets p (len issuer) (len (tlv code_len 2 (code_int serial))) u (tool_chain p n) b o.

(** In a build where instance and back end agree, the tool measures, for every count,
    certificate and request to the octet: all contexts were derived and are in the
    certificate.  Only two things can keep it from measuring: a derived secret that ECDSA
    does not accept, and a request for MAX_HANDLES contexts that is longer than
    MAX_CERT_SIZE.  What it reports is never above MAX_CERT_SIZE. *)
Theorem C55_measure :
  forall cf R (pr : primitives R) chain issuer serial ski a p n cert seed,
    tool_profile cf a = Some p -> tool_backend cf a = Some p ->
    reference (with_profile p cf) pr (backend_digest p) chain issuer serial ski -> all_bytes issuer -> all_bytes serial ->
    (1 <= n <= max_handles cf)%nat ->
    let m := measure_cert_csr R pr chain issuer serial ski cf a n cert seed in
    (exists b o, bits_range p b /\ octets_range p o /\ m = Size cert (size_of p issuer serial cert n b o) /\
       size_of p issuer serial cert n b o <= max_cert_size cf) \/
    (m = NoKey (CryptoErr rc_ecdsa_error) /\ p <> Mldsa87) \/
    (m = NoKey (InternalError CertSizeOverflow) /\ cert = false /\ n = max_handles cf).
Proof.
  intros cf R pr chain issuer serial ski a p n cert seed Ep Eb RF HI HS Hn m. subst m. unfold measure_cert_csr.
  destruct (Nat.eqb_spec n 0); [lia|]. destruct (Nat.ltb_spec (max_handles cf) n); [lia|]. cbn [orb]. rewrite Ep, Eb.
  unfold execute_and_measure. destruct (dpe_new _ _ _ _ _ _) as [r w] eqn:EN.
  apply (tool_start (with_profile p cf) pr chain issuer serial ski RF) in EN as [-> D].
  destruct (tool_run (with_profile p cf) pr chain issuer serial ski RF cert (n - 1) (n - 1) 0 w D) as (w' & E & D'); [lia|cbn [with_profile max_handles]; lia|].
  change (prof (with_profile p cf)) with p in E. rewrite E.
  apply (tool_key (with_profile p cf) pr chain issuer serial ski RF HI HS) in D'. replace (S (n - 1)) with n in D' by lia.
  change (prof (with_profile p cf)) with p in D'. change (max_handles (with_profile p cf)) with (max_handles cf) in D'. cbv zeta in D'.
  destruct D' as [(x & -> & (b & o & B1 & B2 & EX) & LX)|[(-> & salt & ikm & info & k & K1 & K2)|(-> & K1 & K2)]].
  - left. exists b, o. change (prof (with_profile p cf)) with p in *. split; [exact B1|]. split; [exact B2|].
    assert (E1 : x = size_of p issuer serial cert n b o) by exact EX. rewrite <- E1. split; [reflexivity|exact LX].
  - right; left. assert (NM : p <> Mldsa87).
    { intros ->. cbn [profile_alg] in *. destruct (so_kdf _ _ _ (rf_sound _ _ _ _ _ _ _ RF) salt ikm info) as (k' & E1 & E2). cbn [with_profile prof profile_alg] in E1, E2.
      assert (k' = k) by congruence. subst k'. cbn [pr_usable] in K2. rewrite (E2 eq_refl) in K2. discriminate K2. }
    split; [|exact NM]. destruct p; try reflexivity. destruct (NM eq_refl).
  - right; right. auto.
Qed.
Print Assumptions C55_measure.

(** "Slightly higher growth at small n": with signatures of one length each further
    context takes as many octets as its measurement, the second one at most six more and
    the third at most two more, in any build; so no step is larger than the first. *)
Theorem C55_growth :
  forall p issuer serial cert n b o,
    (length issuer <= 97)%nat -> (length serial <= 20)%nat -> bits_range p b -> octets_range p o -> (2 <= n <= 64)%nat ->
    let s k := size_of p issuer serial cert k b o in
    let entry := match p with P256Sha256 => 122 | _ => 155 end in
    s n = s (n - 1)%nat + entry +
      match p, cert, n with
      | P256Sha256, true, 2%nat => 3
      | P256Sha256, false, 2%nat => 6
      | P256Sha256, _, 3%nat => 2
      | P256Sha256, _, _ => 0
      | _, _, 2%nat => 3
      | _, _, _ => 0
      end /\
    s n - s (n - 1)%nat <= s 2%nat - s 1%nat.
Proof.
  intros p issuer serial cert n b o HI HS HB HO HN s entry.
  assert (LI : len issuer <= 97) by (unfold len; lia). pose proof (serial_room serial ltac:(unfold len; lia)) as LS.
  assert (G : forall k, (1 <= k <= 64)%nat -> s k = s 1%nat + (tool_chain p k - tool_chain p 1) + if cert then cert_extra p k else request_extra p k).
  { intros k Hk. unfold s, size_of. destruct cert; [apply cert_growth|apply request_growth]; assumption. }
  assert (T : forall k, tool_chain p k = N.of_nat k * entry) by reflexivity.
  pose proof (G n ltac:(lia)) as Gn. pose proof (G (n - 1)%nat ltac:(lia)) as Gm. pose proof (G 2%nat ltac:(lia)) as G2. rewrite !T in *.
  clear G T. clearbody s. destruct n as [|[|[|[|n]]]]; try lia; cbn [Nat.sub] in *; rewrite ?Nat.sub_0_r in *;
    destruct p, cert; unfold entry, cert_extra, request_extra in *; lia.
Qed.
Print Assumptions C55_growth.

(** ** The report of the benchmark *)

Lemma sweep_even cf R (pr : primitives R) chain issuer serial ski a seed (cs rs : nat -> N) (stop : measured -> Prop) :
  forall ns,
    (forall n, In n ns -> let m := measure_cert_csr R pr chain issuer serial ski cf a n true seed in m = Size true (cs n)) ->
    (forall n, In n ns -> let m := measure_cert_csr R pr chain issuer serial ski cf a n false seed in
       m = Size false (rs n) \/ stop m) ->
    (forall m, stop m -> match m with Size _ _ => False | _ => True end) ->
    match sweep R pr chain issuer serial ski cf a seed ns with
    | inr (xs, ys) => xs = map (fun n => (N.of_nat n, cs n)) ns /\ ys = map (fun n => (N.of_nat n, rs n)) ns
    | inl m => stop m
    end.
Proof.
  intros ns H1 H2 HS. induction ns as [|n ns IH]; cbn [sweep map]; [auto|].
  rewrite (H1 n (or_introl eq_refl)). destruct (H2 n (or_introl eq_refl)) as [E|E]; [rewrite E|].
  - specialize (IH (fun k K => H1 k (or_intror K)) (fun k K => H2 k (or_intror K))).
    destruct (sweep _ _ _ _ _ _ _ _ _ ns) as [m|[xs ys]]; [exact IH|]. destruct IH as [-> ->]. auto.
  - pose proof (HS _ E). destruct (measure_cert_csr R pr chain issuer serial ski cf a n false seed); try exact E. contradiction.
Qed.

(** With ML-DSA, where a signature has one length, the suggested constants are right: if
    the benchmark reports at all, it suggests 158 octets for each context, calls the
    constants verified, and they bound every certificate and request it could measure for
    any count and any seed, the sampled counts and the others.  It ends without a report
    only if there are fewer than two counts, or if the request for MAX_HANDLES contexts
    is longer than MAX_CERT_SIZE; that is possible only where MAX_HANDLES is itself a
    sampled count. *)
Theorem C55_ml_dsa :
  forall cf R (pr : primitives R) chain issuer serial ski seed,
    feat_mldsa cf = true ->
    reference (with_profile Mldsa87 cf) pr (backend_digest Mldsa87) chain issuer serial ski -> all_bytes issuer -> all_bytes serial ->
    match benchmark_run pr chain issuer serial ski cf Mldsa seed with
    | TooFewHandles => max_handles cf = 1%nat
    | Stopped m => m = NoKey (InternalError CertSizeOverflow) /\ In (max_handles cf) [1; 2; 4; 8; 16; 24; 32; 48; 64]%nat
    | Report certs csrs use =>
        exists base, use = Some (base, 158, true) /\
          forall n cert seed' x, measure_cert_csr R pr chain issuer serial ski cf Mldsa n cert seed' = Size cert x ->
            x <= base + 158 * N.of_nat n
    end.
Proof.
  intros cf R pr chain issuer serial ski seed HM RF HI HS.
  pose proof (fun n cert sd H => C55_measure cf R pr chain issuer serial ski Mldsa Mldsa87 n cert sd ltac:(cbn; rewrite HM; reflexivity)
                ltac:(cbn; rewrite HM; reflexivity) RF HI HS H) as M.
  destruct (rf_artifacts _ _ _ _ _ _ _ RF) as [A1 A2].
  destruct (rf_config _ _ _ _ _ _ _ RF) as (MH & _). cbn [with_profile max_handles] in MH.
  set (sz := fun cert n => size_of Mldsa87 issuer serial cert n 4632 4631).
  assert (G : forall cert n, (1 <= n <= 64)%nat ->
    sz cert n = sz cert 1%nat + 155 * N.of_nat (n - 1) + match n with 1%nat => 0 | _ => 3 end).
  { intros cert n Hn. assert (LI : len issuer <= 97) by (unfold len; lia). pose proof (serial_room serial ltac:(unfold len; lia)) as LS.
    assert (E : sz cert n = sz cert 1%nat + (tool_chain Mldsa87 n - tool_chain Mldsa87 1) + if cert then cert_extra Mldsa87 n else request_extra Mldsa87 n).
    { unfold sz, size_of. destruct cert; [apply cert_growth|apply request_growth]; try assumption; reflexivity. }
    rewrite E. unfold tool_chain, cert_extra, request_extra. destruct n as [|[|n]], cert; lia. }
  assert (CR : sz true 1%nat <= sz false 1%nat).
  { assert (LI : len issuer <= 97) by (unfold len; lia). pose proof (serial_room serial ltac:(unfold len; lia)) as LS.
    unfold sz, size_of. set (q := len (tlv code_len 2 (code_int serial))) in *. clearbody q. change (tool_chain Mldsa87 1) with 155.
    rewrite cert_of_exts, request_of_exts by first [assumption|vm_compute; discriminate|vm_compute; split; discriminate].
    change (exts_size true 48 155) with ltac:(let v := eval vm_compute in (exts_size true 48 155) in exact v).
    change (tlv_size (tlv_size (11 + tlv_size (exts_size false 48 155)))) with ltac:(let v := eval vm_compute in (tlv_size (tlv_size (11 + tlv_size (exts_size false 48 155)))) in exact v).
    change (alg_max Mldsa87) with ltac:(let v := eval vm_compute in (alg_max Mldsa87) in exact v). rewrite (tlv_long (len issuer + q + 18 + _ + 4631)) by lia. rewrite tlv_long by lia. lia. }
  unfold benchmark_run.
  destruct (Nat.ltb_spec (length (handle_counts cf)) 2) as [L|L].
  { destruct (Nat.eq_dec (max_handles cf) 1) as [E|E]; [exact E|]. exfalso. unfold handle_counts in L. cbn [filter] in L.
    rewrite (proj2 (Nat.leb_le 1 (max_handles cf))), (proj2 (Nat.leb_le 2 (max_handles cf))) in L by lia. cbn [length] in L. lia. }
  assert (HC : exists rest, handle_counts cf = (1 :: 2 :: rest)%nat).
  { unfold handle_counts in *. cbn [filter] in *. destruct (Nat.leb_spec 1 (max_handles cf)); [|lia].
    destruct (Nat.leb_spec 2 (max_handles cf)) as [_|K]; [eexists; reflexivity|]. exfalso.
    repeat match type of L with context [Nat.leb ?a ?b] => destruct (Nat.leb_spec a b); [lia|] end. cbn [length] in L. lia. }
  assert (HR : forall n, In n (handle_counts cf) -> (1 <= n <= max_handles cf)%nat /\ In n [1; 2; 4; 8; 16; 24; 32; 48; 64]%nat).
  { intros n X. apply filter_In in X as [X Y]. apply Nat.leb_le in Y. split; [|exact X]. cbn [In] in X. lia. }
  assert (MS : forall n cert sd, (1 <= n <= max_handles cf)%nat ->
    let m := measure_cert_csr R pr chain issuer serial ski cf Mldsa n cert sd in
    m = Size cert (sz cert n) \/ (m = NoKey (InternalError CertSizeOverflow) /\ cert = false /\ n = max_handles cf)).
  { intros n cert sd Hn. destruct (M n cert sd Hn) as [(b & o & B & O & E & _)|[(_ & X)|X]]; [|destruct (X eq_refl)|right; exact X].
    left. cbn [bits_range octets_range] in B, O. rewrite B, O in E. exact E. }
  assert (UP : forall cert n, (1 <= n <= 64)%nat -> sz cert n <= sz false 1%nat - 158 * 1 + 158 * N.of_nat n).
  { intros cert n Hn. pose proof (G cert n Hn) as Gn. assert (158 <= sz true 1%nat) by
      (unfold sz, size_of; rewrite cert_of_exts by first [unfold len; lia|vm_compute; discriminate|vm_compute; split; discriminate]; lia).
    destruct cert, n as [|[|n]]; lia. }
  pose proof (sweep_even cf R pr chain issuer serial ski Mldsa seed (sz true) (sz false)
    (fun m => m = NoKey (InternalError CertSizeOverflow) /\ In (max_handles cf) [1; 2; 4; 8; 16; 24; 32; 48; 64]%nat) (handle_counts cf)) as SW.
  assert (S1 : forall n, In n (handle_counts cf) -> let m := measure_cert_csr R pr chain issuer serial ski cf Mldsa n true seed in m = Size true (sz true n)).
  { intros n X. destruct (MS n true seed (proj1 (HR n X))) as [E|(_ & E & _)]; [exact E|discriminate E]. }
  assert (S2 : forall n, In n (handle_counts cf) -> let m := measure_cert_csr R pr chain issuer serial ski cf Mldsa n false seed in
    m = Size false (sz false n) \/ (m = NoKey (InternalError CertSizeOverflow) /\ In (max_handles cf) [1; 2; 4; 8; 16; 24; 32; 48; 64]%nat)).
  { intros n X. destruct (HR n X) as [Y Z]. destruct (MS n false seed Y) as [E|(E & _ & EN)]; [left; exact E|]. right. split; [exact E|]. rewrite <- EN. exact Z. }
  specialize (SW S1 S2 ltac:(intros m [-> _]; exact Logic.I)). clear S1 S2.
  destruct (sweep _ _ _ _ _ _ _ _ _ _) as [m|[xs ys]]; [exact SW|]. destruct SW as [-> ->].
  clearbody sz. set (base := sz false 1%nat - 158 * 1).
  assert (AP : approx (map (fun n => (N.of_nat n, sz true n)) (handle_counts cf)) (map (fun n => (N.of_nat n, sz false n)) (handle_counts cf)) = Some (base, 158)).
  { destruct HC as [rest ->]. cbn [map]. unfold approx, from_sizes. change (N.of_nat 1) with 1. change (N.of_nat 2) with 2.
    pose proof (G true 2%nat ltac:(lia)) as G1. pose proof (G false 2%nat ltac:(lia)) as G2. cbv iota in G1, G2. change (155 * N.of_nat (2 - 1)) with 155 in G1, G2.
    destruct (N.leb_spec (sz true 2%nat) (sz true 1%nat)); [lia|]. destruct (N.leb_spec (sz false 2%nat) (sz false 1%nat)); [lia|].
    cbn [N.leb N.compare Pos.compare Pos.compare_cont orb].
    destruct (last _ (1, sz true 1%nat)) as [u1 v1], (last _ (1, sz false 1%nat)) as [u2 v2]. cbn [la_per].
    replace (sz true 2%nat - sz true 1%nat) with 158 by lia. replace (sz false 2%nat - sz false 1%nat) with 158 by lia. reflexivity. }
  rewrite AP. exists base. split.
  - replace (verify _ _ base 158) with true; [reflexivity|]. symmetry. apply forallb_forall. intros [x y] X. apply in_app_or in X.
    assert (Y : exists cert n, In n (handle_counts cf) /\ x = N.of_nat n /\ y = sz cert n).
    { destruct X as [X|X]; apply in_map_iff in X as (n & E & X); injection E as <- <-; eauto. }
    destruct Y as (cert & n & Y & -> & ->). cbn [fst snd]. apply N.leb_le. apply UP. destruct (HR n Y). lia.
  - intros n cert sd x E. destruct (Nat.eq_dec n 0) as [->|N0]; [discriminate E|].
    destruct (Nat.le_gt_cases n (max_handles cf)) as [Ln|Ln].
    + destruct (MS n cert sd ltac:(lia)) as [X|(X & _)]; cbv zeta in X; rewrite X in E; [|discriminate E]. injection E as <-. apply UP. lia.
    + rewrite (proj2 (C55_count cf R pr chain issuer serial ski Mldsa n cert sd) (or_intror Ln)) in E. discriminate E.
Qed.
Print Assumptions C55_ml_dsa.

(** ** Where the report is wrong *)

Definition with_sign256 (f : bytes -> bytes -> option (bytes * bytes)) : primitives N :=
  {| pr_fill := pr_fill toy_pr; pr_sha256 := toy_hash; pr_sha384 := pr_sha384 toy_pr;
     pr_hkdf256 := pr_hkdf256 toy_pr; pr_hkdf384 := pr_hkdf384 toy_pr;
     pr_valid256 := pr_valid256 toy_pr; pr_valid384 := pr_valid384 toy_pr;
     pr_point256 := pr_point256 toy_pr; pr_point384 := pr_point384 toy_pr;
     pr_sign256 := f; pr_sign384 := pr_sign384 toy_pr;
     pr_mldsa_public := pr_mldsa_public toy_pr; pr_mldsa_sign_mu := pr_mldsa_sign_mu toy_pr; pr_mldsa_sign := pr_mldsa_sign toy_pr;
     pr_alias256 := pr_alias256 toy_pr; pr_alias384 := pr_alias384 toy_pr; pr_alias_mldsa := pr_alias_mldsa toy_pr |}.
Definition p256_cf (n : nat) : config :=
  {| max_handles := n; feat_p256 := true; feat_p384 := false; feat_mldsa := false; prof := P256Sha256; fuel := 5 |}.
Lemma with_sign_reference n f issuer serial : (1 <= n <= 4)%nat -> (forall k d, f k d <> None) -> (length issuer <= 97)%nat -> (length serial <= 20)%nat ->
  reference (p256_cf n) (with_sign256 f) AlgSha256 ref_chain issuer serial (repeat 7 20).
Proof.
  intros Hn HF HI HS. split.
  - unfold config_ok. cbn [p256_cf max_handles fuel]. repeat split; lia.
  - right; reflexivity.
  - split.
    + intros b. apply length_le_bytes.
    + intros. eexists. split; [reflexivity|]. discriminate.
    + intros k d _. apply HF.
    + exists [9]. split; [reflexivity|apply HF].
  - reflexivity.
  - split; [discriminate|]. repeat split; auto; apply Nat.leb_le; reflexivity.
  - apply Nat.ltb_lt. vm_compute. reflexivity.
Qed.

(** With ECDSA the constants that the tool calls verified do not bound what the same tool
    measures for counts in between or above: signatures are of different lengths.  Here
    MAX_HANDLES is 3, so that 1 and 2 are sampled: base 626 and 97 per context, verified;
    the request for 3 contexts has 976 octets. *)
Theorem C55_verified_refuted :
  exists cf (pr : primitives N) certs csrs base per,
    reference cf pr (backend_digest P256Sha256) ref_chain [48; 0] [1; 2] (repeat 7 20) /\ prof cf = P256Sha256 /\
    benchmark_run pr ref_chain [48; 0] [1; 2] (repeat 7 20) cf Ec 3 = Report certs csrs (Some (base, per, true)) /\
    exists n x, (n <= max_handles cf)%nat /\
      measure_cert_csr N pr ref_chain [48; 0] [1; 2] (repeat 7 20) cf Ec n false 3 = Size false x /\ base + per * N.of_nat n < x.
Proof.
  exists (p256_cf 3), (with_sign256 (fun k d => Some (if N.testbit (be_val (firstn 4 d)) 2 then repeat 255 32 else repeat 0 31 ++ [5], k))).
  exists [(1, 637); (2, 730)], [(1, 723); (2, 820)], 626, 97.
  split; [apply with_sign_reference; [lia|discriminate|apply Nat.leb_le; reflexivity|apply Nat.leb_le; reflexivity]|]. split; [reflexivity|].
  split; [vm_compute; reflexivity|]. exists 3%nat, 976. split; [apply Nat.leb_le; reflexivity|]. split; [vm_compute; reflexivity|reflexivity].
Qed.
Print Assumptions C55_verified_refuted.

(** The constants in dpe/build.rs come from this tool.  For P256 and MAX_HANDLES = 2 they
    are too small: with an issuer name of 27 bytes, a serial number of 20 and signatures
    of the usual length the request for 2 contexts does not fit, though its SVNs are 0.
    The tool does not show the missing octets, it stops.  For P384 and MAX_HANDLES = 1 the
    longest request has one octet more than there is room for. *)
Theorem C55_constants_refuted :
  exists cf (pr : primitives N) issuer serial,
    reference cf pr (backend_digest P256Sha256) ref_chain issuer serial (repeat 7 20) /\ prof cf = P256Sha256 /\
    length issuer = 27%nat /\ length serial = 20%nat /\ max_handles cf = 2%nat /\
    max_cert_size cf = 896 /\ size_of P256Sha256 issuer serial false 2 75 74 = 898 /\
    benchmark_run pr ref_chain issuer serial (repeat 7 20) cf Ec 3 = Stopped (NoKey (InternalError CertSizeOverflow)) /\
    size_of P384Sha384 issuer serial false 1 107 106 = 917 /\
    max_cert_size {| max_handles := 1; feat_p256 := false; feat_p384 := true; feat_mldsa := false; prof := P384Sha384; fuel := 5 |} = 916.
Proof.
  exists (p256_cf 2), (with_sign256 (fun _ _ => Some (repeat 255 32, repeat 255 32))), (48 :: 25 :: 4 :: 23 :: repeat 1 23), (repeat 1 20).
  split; [apply with_sign_reference; [lia|discriminate|apply Nat.leb_le; reflexivity|apply Nat.leb_le; reflexivity]|].
  repeat (apply conj; [vm_compute; reflexivity|]). vm_compute. reflexivity.
Qed.
Print Assumptions C55_constants_refuted.

(** A build with P256 and P384, which is what [--features p256] gives since P384 is a
    default feature: the instance is created for P256 (and the tool says so), but the back
    end works with P384 keys.  What is measured is no P256 certificate: none with one
    context has so many octets. *)
Theorem C55_both_refuted :
  exists cf x,
    feat_p256 cf = true /\ feat_p384 cf = true /\ tool_profile cf Ec = Some P256Sha256 /\ tool_backend cf Ec = Some P384Sha384 /\
    measure_cert_csr N toy_pr ref_chain [48; 0] [1; 2] (repeat 7 20) cf Ec 1 true 3 = Size true x /\
    forall b o, bits_range P256Sha256 b -> size_of P256Sha256 [48; 0] [1; 2] true 1 b o < x.
Proof.
  exists {| max_handles := 4; feat_p256 := true; feat_p384 := true; feat_mldsa := false; prof := P256Sha256; fuel := 5 |}, 752.
  do 4 (split; [reflexivity|]). split; [vm_compute; reflexivity|]. intros b o HB. unfold bits_range in HB. unfold size_of.
  rewrite cert_of_exts by first [vm_compute; discriminate|vm_compute; split; discriminate|lia].
  change (exts_size true 32 (tool_chain P256Sha256 1)) with ltac:(let v := eval vm_compute in (exts_size true 32 (tool_chain P256Sha256 1)) in exact v).
  change (alg_max P256Sha256) with ltac:(let v := eval vm_compute in (alg_max P256Sha256) in exact v).
  change (spki_max P256Sha256) with ltac:(let v := eval vm_compute in (spki_max P256Sha256) in exact v).
  change (len [48; 0]) with 2. lia.
Qed.
Print Assumptions C55_both_refuted.

(** ** Cases *)

(** The toy primitives in a P256 build with 4 handles: all four certificates and requests
    are measured, growth as proved, and the constants are verified. *)
Example C55_case :
  reference toy_cf toy_pr (backend_digest P256Sha256) ref_chain [48; 0] [1; 2] (repeat 7 20) /\
  with_profile P256Sha256 toy_cf = toy_cf /\ tool_profile toy_cf Ec = Some P256Sha256 /\ tool_backend toy_cf Ec = Some P256Sha256 /\
  measure_cert_csr N toy_pr ref_chain [48; 0] [1; 2] (repeat 7 20) toy_cf Ec 3 true 3 = Size true 886 /\
  size_of P256Sha256 [48; 0] [1; 2] true 3 74 72 = 886 /\ bits_range P256Sha256 74 /\ octets_range P256Sha256 72 /\
  measure_cert_csr N toy_pr ref_chain [48; 0] [1; 2] (repeat 7 20) toy_cf Ec 5 true 3 = BadCount.
Proof.
  split; [exact toy_reference|]. repeat (apply conj; [first [reflexivity|vm_compute; reflexivity]|]).
  split; [split; discriminate|]. split; [split; discriminate|]. reflexivity.
Qed.
(** An ML-DSA build. *)
Definition mldsa_cf : config :=
  {| max_handles := 3; feat_p256 := false; feat_p384 := false; feat_mldsa := true; prof := Mldsa87; fuel := 5 |}.
Example C55_ml_dsa_case :
  feat_mldsa mldsa_cf = true /\ with_profile Mldsa87 mldsa_cf = mldsa_cf /\
  reference mldsa_cf toy_pr (backend_digest Mldsa87) ref_chain [48; 0] [1; 2] (repeat 7 20).
Proof.
  split; [reflexivity|]. split; [reflexivity|]. split.
  - unfold config_ok. cbn [mldsa_cf max_handles fuel]. repeat split; lia.
  - left; reflexivity.
  - split.
    + intros b. apply length_to_buf.
    + intros. eexists. split; [reflexivity|]. intros _. apply length_to_buf.
    + intros; exact Logic.I.
    + exists [9]. reflexivity.
  - reflexivity.
  - split; [discriminate|]. repeat split; apply Nat.leb_le; reflexivity.
  - apply Nat.ltb_lt. vm_compute. reflexivity.
Qed.
