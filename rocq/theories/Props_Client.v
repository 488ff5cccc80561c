(** Props_Client.v -- C53: the client of the verification suite and the device understand
    each other; C54: the client reads the certificate chain. *)
From Verif Require Import Base Errors Types StateOps Env Wire Instance Commands RespBuf Response X509 X509Cert RustCrypto DefaultPlatform Simulator GoClient ClientSpec
  Lib Spec Exec Effects Forest History WireSpec Contract Codec Steps Reach CommandSpecs Responses Execute X509Spec X509Cmd X509Sane
  PlatformProofs RustProofs Props_Reference Toy SimulatorProofs Props_Simulator ClientProofs ClientChain.
Local Open Scope N_scope.

(** ** Which clients fit *)

(** For every build of the simulator but those with both P384 and ML-DSA compiled in (where
    the certificate area is larger than what the client takes) there is a kind of client
    that suits it, and only one kind can connect at all. *)
Theorem C53_builds :
  forall cf, config_ok cf -> prof cf = sim_profile cf ->
    (exists k, kind_profile k = own_profile cf /\ (forall k', kind_profile k' = own_profile cf -> k' = k) /\
       (suits cf k <-> ~ (feat_p384 cf = true /\ feat_mldsa cf = true))) /\
    kind_profile Min256 <> own_profile cf /\ kind_profile Min384 <> own_profile cf.
Proof.
  intros cf ([H1 H2] & He & _) Hs.
  assert (Q : forall x y, x <= y -> 4 * (x / 4) <= y) by (intros x y L; eapply N.le_trans; [apply N.mul_div_le; discriminate|exact L]).
  assert (Q2 : forall x, x < 4 * (x / 4) + 4) by (intros x; pose proof (N.mul_succ_div_gt x 4 ltac:(discriminate)); lia).
  unfold profile_enabled in He. unfold sim_profile in Hs.
  split; [|unfold own_profile; destruct (prof cf); split; discriminate].
  exists (match prof cf with P256Sha256 => Full256 | P384Sha384 => Full384 | Mldsa87 => FullMldsa end).
  split; [unfold own_profile; destruct (prof cf); reflexivity|].
  split; [intros k'; unfold own_profile; destruct (prof cf), k'; try discriminate; reflexivity|].
  split.
  - intros [_ Hd Hc] [F1 F2]. rewrite F1 in Hs. rewrite Hs in Hc. unfold max_cert_size in Hc. rewrite F2 in Hc.
    pose proof (Q2 (12307 + 158 * N.of_nat (max_handles cf) + 3)). lia.
  - intros NB. constructor.
    + unfold own_profile; destruct (prof cf); reflexivity.
    + unfold tci_size. destruct (feat_p384 cf) eqn:F1, (feat_mldsa cf) eqn:F2; cbn [orb] in *; rewrite Hs in *; reflexivity.
    + unfold max_cert_size. destruct (feat_p384 cf) eqn:F1, (feat_mldsa cf) eqn:F2; rewrite Hs in *; try (exfalso; apply NB; auto; fail);
        destruct (feat_p256 cf); try discriminate He; cbv beta iota zeta; apply Q; lia.
Qed.
Print Assumptions C53_builds.

(** ** Connecting *)

(** The client connects to a device of its profile and to no other; it learns the version,
    the vendor and the support word, and takes the command codes of the version.  The
    device is not changed. *)
Theorem C53_new :
  forall cf R (pr : primitives R) chain issuer serial ski k loc w,
    config_ok cf -> chain_fits chain -> (length chain < 2048 * (fuel cf - 1))%nat -> (length issuer <= 128)%nat ->
    reachable cf (w_st w) -> u32 loc ->
    let (r, t) := go_new _ (sim_send cf R pr chain issuer serial ski loc) k (Some w) in
    t = Some w /\
    (kind_profile k <> own_profile cf -> r = GoErr GoProfile) /\
    (kind_profile k = own_profile cf -> exists c, r = GoOk c /\
       cl_kind c = k /\ cl_codes c = codes_v09 /\ cl_profile c = own_profile cf /\ cl_major c = 0 /\ cl_minor c = 13 /\
       cl_vendor_id c = 0 /\ cl_vendor_sku c = 0 /\ cl_flags c = st_support (w_st w) /\ (suits cf k -> made_for cf c)).
Proof.
  intros cf R pr chain issuer serial ski k loc w Hcf HC HF HI Hr Ul.
  rewrite new_told by assumption. split; [reflexivity|]. split; intros E.
  - rewrite (proj2 (N.eqb_neq _ _) E). reflexivity.
  - rewrite (proj2 (N.eqb_eq _ _) E). eexists. split; [reflexivity|]. do 8 (split; [reflexivity|]). intros S. split; [exact S|]. auto.
Qed.
Print Assumptions C53_new.

(** Whatever device answers: one that reports version 0.8 is called with the codes of that
    version, a later 0.x with those of 0.9, any other version is refused; so is another
    profile.  The client asks once, for the profile, and stores what it was told except
    the number of contexts. *)
Theorem C53_version :
  forall T (send : bytes -> T -> option bytes * T) k t t' p ma mi vi vs mt fl more,
    u32 p -> ma < 2 ^ 16 -> mi < 2 ^ 16 -> u32 vi -> u32 vs -> u32 mt -> u32 fl ->
    send ([67; 69; 80; 68; 1; 0; 0; 0; 0; 0; 0; 0]) t =
      (Some ([82; 69; 80; 68; 0; 0; 0; 0] ++ le_bytes 4 p ++ le_bytes 2 ma ++ le_bytes 2 mi ++ le_bytes 4 vi ++ le_bytes 4 vs ++
             le_bytes 4 mt ++ le_bytes 4 fl ++ more), t') ->
    let codes c := [gc_init (cl_codes c); gc_derive (cl_codes c); gc_certify (cl_codes c); gc_sign (cl_codes c);
                    gc_rotate (cl_codes c); gc_destroy (cl_codes c); gc_chain (cl_codes c); gc_update (cl_codes c)] in
    let (r, t1) := go_new T send k t in
    t1 = t' /\
    (p <> target_profile k -> r = GoErr GoProfile) /\
    (p = target_profile k -> ma <> 0 \/ mi < 8 -> r = GoErr GoVersion) /\
    (p = target_profile k -> ma = 0 -> 8 <= mi -> exists c, r = GoOk c /\
       codes c = (if N.eqb mi 8 then [5; 6; 7; 8; 14; 15; 128; 2 ^ 31] else [7; 8; 9; 10; 14; 15; 16; 2 ^ 31]) /\
       cl_kind c = k /\ cl_profile c = p /\ cl_major c = 0 /\ cl_minor c = mi /\ cl_vendor_id c = vi /\ cl_vendor_sku c = vs /\
       cl_flags c = fl /\ cl_max_tci c = 0).
Proof.
  intros T send k t t' p ma mi vi vs mt fl more Up Uma Umi Uvi Uvs Umt Ufl E codes.
  assert (X : go_get_profile T send t = (GoOk (VProfile p ma mi vi vs mt fl), t')).
  { unfold go_get_profile, go_exec.
    change (le_bytes 4 0x44504543 ++ le_bytes 4 0x1 ++ le_bytes 4 0 ++ []) with [67; 69; 80; 68; 1; 0; 0; 0; 0; 0; 0; 0]. rewrite E.
    rewrite (read_fields_at [4; 4; 4]%nat [le_bytes 4 0x44504552; le_bytes 4 0; le_bytes 4 p] _
               (le_bytes 2 ma ++ le_bytes 2 mi ++ le_bytes 4 vi ++ le_bytes 4 vs ++ le_bytes 4 mt ++ le_bytes 4 fl ++ more));
      [|cbn [concat]; rewrite app_nil_r, <- !app_assoc; reflexivity|reflexivity].
    rewrite !le4 by first [assumption|reflexivity].
    rewrite (read_fields_at [2; 2; 4; 4; 4; 4]%nat [le_bytes 2 ma; le_bytes 2 mi; le_bytes 4 vi; le_bytes 4 vs; le_bytes 4 mt; le_bytes 4 fl] _ more);
      [|cbn [concat]; rewrite app_nil_r, <- !app_assoc; reflexivity|reflexivity].
    cbn [N.eqb Pos.eqb negb go_then]. rewrite !le4, !le2 by assumption. reflexivity. }
  unfold go_new. rewrite X. cbn [go_then]. split; [reflexivity|]. split; [|split].
  - intros N. rewrite (proj2 (N.eqb_neq _ _) N). reflexivity.
  - intros -> V. rewrite N.eqb_refl. cbn [negb]. destruct (N.eqb_spec ma 0) as [->|N]; [|reflexivity]. cbn [andb].
    destruct (N.eqb_spec mi 8); [lia|]. destruct (N.leb_spec 9 mi); [lia|reflexivity].
  - intros -> -> V. rewrite N.eqb_refl. cbn [negb andb N.eqb]. destruct (N.eqb_spec mi 8) as [->|N].
    + eexists. split; [reflexivity|]. repeat split.
    + destruct (N.leb_spec 9 mi); [|lia]. eexists. split; [reflexivity|]. repeat split.
Qed.
Print Assumptions C53_version.
Example C53_version_ex :
  let old := [82; 69; 80; 68; 0; 0; 0; 0] ++ le_bytes 4 4 ++ le_bytes 2 0 ++ le_bytes 2 8 ++ repeat 0 16 in
  exists c, go_new unit (fun _ u => (Some old, u)) Full384 tt = (GoOk c, tt) /\ gc_init (cl_codes c) = 5.
Proof. eexists. vm_compute. split; reflexivity. Qed.

(** The number of contexts the device has room for is in its answer, but a new client does
    not copy it. *)
Theorem C53_max_tci_refuted :
  exists cf, config_ok cf /\
    forall R (pr : primitives R) chain issuer serial ski loc w, chain_fits chain -> (length chain < 2048 * (fuel cf - 1))%nat -> (length issuer <= 128)%nat ->
      reachable cf (w_st w) -> u32 loc ->
      exists c, fst (go_new _ (sim_send cf R pr chain issuer serial ski loc) Full256 (Some w)) = GoOk c /\
        cl_max_tci c = 0 /\ (max_handles cf > 0)%nat /\
        fst (go_get_profile _ (sim_send cf R pr chain issuer serial ski loc) (Some w)) =
          GoOk (VProfile (own_profile cf) 0 13 0 0 (N.of_nat (max_handles cf)) (st_support (w_st w))).
Proof.
  exists toy_cf. split; [exact toy_cf_ok|]. intros R pr chain issuer serial ski loc w HC HF HI Hr Ul.
  rewrite new_told, profile_told by (assumption || exact toy_cf_ok). eexists. split; [reflexivity|]. split; [reflexivity|]. split; [cbn; lia|reflexivity].
Qed.
Print Assumptions C53_max_tci_refuted.

(** PowerOn: a simulator started for a set of features reports exactly these features;
    IsSymmetric is never reported. *)
Definition not_symmetric (s : go_support) : go_support :=
  {| gs_simulation := gs_simulation s; gs_recursive := gs_recursive s; gs_auto_init := gs_auto_init s; gs_rotate_context := gs_rotate_context s;
     gs_x509 := gs_x509 s; gs_csr := gs_csr s; gs_is_symmetric := false; gs_internal_info := gs_internal_info s; gs_internal_dice := gs_internal_dice s;
     gs_retain_parent_context := gs_retain_parent_context s; gs_cdi_export := gs_cdi_export s; gs_critical := gs_critical s |}.
Lemma go_flag m i (b : bool) j : N.testbit (if b then N.lor m (bit i) else m) j = ((N.eqb i j && b) || N.testbit m j)%bool.
Proof.
  unfold bit. destruct b; rewrite ?andb_false_r, ?andb_true_r; [|reflexivity].
  rewrite N.lor_spec, N.shiftl_1_l, N.pow2_bits_eqb. apply orb_comm.
Qed.
Lemma power_flags s : sim_support (power_on_args s) = to_flags (not_symmetric s).
Proof.
  apply N.bits_inj. intros i. rewrite sim_support_bits. unfold to_flags. cbn [not_symmetric gs_simulation gs_recursive gs_auto_init gs_rotate_context
    gs_x509 gs_csr gs_is_symmetric gs_internal_info gs_internal_dice gs_retain_parent_context gs_cdi_export gs_critical]. cbv zeta.
  rewrite !(go_flag _ 18), !(go_flag _ 19), !(go_flag _ 21), !(go_flag _ 22), !(go_flag _ 25), !(go_flag _ 26), !(go_flag _ 27), !(go_flag _ 29), !(go_flag _ 30), !(go_flag _ 31).
  rewrite N.bits_0.
  repeat match goal with |- context [N.eqb ?k i] => destruct (N.eqb_spec k i) as [<-|?];
    [cbn [asked power_on_args sa_simulation sa_recursive sa_auto_init sa_rotate_context sa_x509 sa_csr sa_internal_info sa_internal_dice sa_retain_parent_context sa_cdi_export N.eqb Pos.eqb andb orb]; rewrite ?orb_false_r; reflexivity|] end.
  cbn [andb orb]. destruct i as [|p]; [reflexivity|]. do 5 (destruct p as [p|p|]; try reflexivity; try congruence).
Qed.
Theorem C53_power_on :
  forall cf R (pr : primitives R) chain issuer serial ski s seed loc k,
    config_ok cf -> chain_fits chain -> (length chain < 2048 * (fuel cf - 1))%nat -> (length issuer <= 128)%nat -> u32 loc ->
    kind_profile k = own_profile cf ->
    exists w c, sim_start cf R pr chain issuer serial ski (power_on_args s) seed = (Ok tt, w) /\
      go_new _ (sim_send cf R pr chain issuer serial ski loc) k (Some w) = (GoOk c, Some w) /\
      (cl_flags c = to_flags s <-> gs_is_symmetric s = false) /\ N.testbit (cl_flags c) 24 = false /\
      forall i, i <> 24 -> N.testbit (cl_flags c) i = N.testbit (to_flags s) i.
Proof.
  intros cf R pr chain issuer serial ski s seed loc k Hcf HC HF HI Ul Hk.
  destruct (C50_start cf R pr chain issuer serial ski (power_on_args s) seed Hcf) as (w & E & Hr & Hs & _).
  exists w. rewrite new_told by assumption. rewrite (proj2 (N.eqb_eq _ _) Hk). eexists. split; [exact E|]. split; [reflexivity|]. cbn [cl_flags].
  assert (S : st_support (w_st w) = to_flags (not_symmetric s)).
  { rewrite <- power_flags. apply N.bits_inj. intros i. rewrite sim_support_bits. specialize (Hs i). unfold supports in Hs.
    destruct (N.testbit (st_support (w_st w)) i), (asked (power_on_args s) i); try reflexivity; [symmetry|]; apply Hs; reflexivity. }
  rewrite S.
  assert (B : forall i, i <> 24 -> N.testbit (to_flags (not_symmetric s)) i = N.testbit (to_flags s) i).
  { intros i Ni. unfold to_flags. cbn [not_symmetric gs_simulation gs_recursive gs_auto_init gs_rotate_context
    gs_x509 gs_csr gs_is_symmetric gs_internal_info gs_internal_dice gs_retain_parent_context gs_cdi_export gs_critical]. cbv zeta.
    rewrite !(go_flag _ 18), !(go_flag _ 19), !(go_flag _ 21), !(go_flag _ 22), !(go_flag _ 24). rewrite (proj2 (N.eqb_neq 24 i)) by congruence. reflexivity. }
  assert (B24 : forall x, N.testbit (to_flags x) 24 = gs_is_symmetric x).
  { intros x. unfold to_flags. cbv zeta.
    rewrite !(go_flag _ 18), !(go_flag _ 19), !(go_flag _ 21), !(go_flag _ 22), !(go_flag _ 24), !(go_flag _ 25), !(go_flag _ 26), !(go_flag _ 27), !(go_flag _ 29), !(go_flag _ 30), !(go_flag _ 31).
    rewrite N.bits_0. cbn [N.eqb Pos.eqb andb orb]. rewrite orb_false_r. reflexivity. }
  split; [split|split; [rewrite B24; reflexivity|exact B]].
  - intros Q. rewrite <- B24, <- Q, B24. reflexivity.
  - intros Q. apply N.bits_inj. intros i. destruct (N.eq_dec i 24) as [->|Ni]; [rewrite !B24, Q; reflexivity|apply B; exact Ni].
Qed.
Print Assumptions C53_power_on.

(** ** Calls *)

(** A call with arguments of the right types makes the device execute exactly the command
    that is meant, in the locality of the caller, and the caller gets exactly what the
    response says, or the status of the error. *)
Theorem C53_call :
  forall cf R (pr : primitives R) chain issuer serial ski c q loc w,
    config_ok cf -> chain_fits chain -> (length chain < 2048 * (fuel cf - 1))%nat -> (length issuer <= 128)%nat ->
    reachable cf (w_st w) -> u32 loc -> made_for cf c -> usable (cl_kind c) q ->
    exists r out w' v,
      runs_to cf R pr chain issuer serial ski (meant (cl_kind c) q) loc w r out w' /\
      understood cf (meant (cl_kind c) q) r out v /\
      go_do _ (sim_send cf R pr chain issuer serial ski loc) c q (Some w) = (v, Some w').
Proof.
  intros cf R pr chain issuer serial ski c q loc w Hcf HC HF HI Hr Ul MF U.
  destruct (calls_live cf Hcf R pr chain issuer serial ski HC HF HI c q loc w Hr Ul MF U) as (r & out & w' & X & v & E & D).
  exists r, out, w', v. split; [exact X|]. split; [exact D|exact E].
Qed.
Print Assumptions C53_call.

(** Calls one after the other. *)
Inductive dialogue cf R (pr : primitives R) chain issuer serial ski (k : go_kind)
  : list (N * go_call) -> world (rust_c R) unit -> list (go_result go_value) -> world (rust_c R) unit -> Prop :=
| dl_end w : dialogue cf R pr chain issuer serial ski k [] w [] w
| dl_call loc q l w r out w1 v vs w2 :
    runs_to cf R pr chain issuer serial ski (meant k q) loc w r out w1 -> understood cf (meant k q) r out v ->
    dialogue cf R pr chain issuer serial ski k l w1 vs w2 ->
    dialogue cf R pr chain issuer serial ski k ((loc, q) :: l) w (v :: vs) w2.

Theorem C53_session :
  forall cf R (pr : primitives R) chain issuer serial ski c l w,
    config_ok cf -> chain_fits chain -> (length chain < 2048 * (fuel cf - 1))%nat -> (length issuer <= 128)%nat ->
    reachable cf (w_st w) -> made_for cf c -> Forall (fun x => u32 (fst x) /\ usable (cl_kind c) (snd x)) l ->
    exists vs w', go_session (sim_send cf R pr chain issuer serial ski) c l (Some w) = (vs, Some w') /\
      dialogue cf R pr chain issuer serial ski (cl_kind c) l w vs w' /\ reachable cf (w_st w').
Proof.
  intros cf R pr chain issuer serial ski c l w Hcf HC HF HI Hr MF. revert w Hr.
  induction l as [|[loc q] l IH]; intros w Hr Hl.
  { exists [], w. split; [reflexivity|]. split; [constructor|exact Hr]. }
  inversion Hl as [|? ? [Ul U] Hl2]; subst. cbn [fst snd] in Ul, U.
  destruct (C53_call cf R pr chain issuer serial ski c q loc w Hcf HC HF HI Hr Ul MF U) as (r & out & w1 & v & X & D & E).
  assert (Hr1 : reachable cf (w_st w1)).
  { eapply runs_reachable; [exact Hr| |exact Ul|exact X]. eapply (fun a b => proj1 (meant_wf cf chain issuer HF HI c q a b)); assumption. }
  destruct (IH w1 Hr1 Hl2) as (vs & w' & E2 & D2 & Hr2). exists (v :: vs), w'.
  split; [cbn [go_session]; rewrite E, E2; reflexivity|]. split; [econstructor; eassumption|exact Hr2].
Qed.
Print Assumptions C53_session.

(** A digest, label or message of the wrong length, and a raw message for another profile
    or that is too long, are refused without sending anything. *)
Theorem C53_refused :
  forall T (send : bytes -> T -> option bytes * T) c q t,
    cl_profile c = kind_profile (cl_kind c) -> unusable_length (cl_kind c) q -> go_do T send c q t = (GoErr GoUsage, t).
Proof.
  intros T send c q t Ep U. destruct q; cbn [unusable_length go_do] in *; try contradiction; rewrite ?label_digest, ?data_message.
  - rewrite (proj2 (Nat.eqb_neq _ _) U). reflexivity.
  - rewrite (proj2 (Nat.eqb_neq _ _) U). reflexivity.
  - destruct (Nat.eqb_spec (length label) (label_size (cl_kind c))) as [Q|Q]; [|reflexivity]. destruct U as [U|U]; [contradiction|].
    rewrite (proj2 (Nat.eqb_neq _ _) U). reflexivity.
  - unfold go_sign_raw. rewrite Ep. destruct (N.eqb_spec (kind_profile (cl_kind c)) 5) as [K|K]; [|reflexivity].
    assert (cl_kind c = FullMldsa) by (destruct (cl_kind c); try discriminate K; reflexivity). cbn [negb].
    rewrite label_digest. destruct (Nat.eqb_spec (length label) (label_size (cl_kind c))) as [Q|Q]; [|reflexivity].
    destruct U as [U|[U|U]]; try contradiction. cbn [negb]. rewrite (proj2 (N.ltb_lt _ _) U). reflexivity.
  - rewrite (proj2 (Nat.eqb_neq _ _) U). reflexivity.
Qed.
Print Assumptions C53_refused.

(** Whatever the device answers, connecting and the calls end with a value or an error. *)
Theorem C53_calm :
  forall T (send : bytes -> T -> option bytes * T) t,
    (forall k, fst (go_new T send k t) <> GoPanic /\ fst (go_new T send k t) <> GoFuel) /\
    (forall c q, fst (go_do T send c q t) <> GoPanic /\ fst (go_do T send c q t) <> GoFuel).
Proof.
  intros T send t. split.
  - intros k. pose proof (calm_new T send k t) as H. destruct (fst (go_new T send k t)); cbn [calm] in H; try contradiction; split; discriminate.
  - intros c q. pose proof (calm_do T send c q t) as H. destruct (fst (go_do T send c q t)); cbn [calm] in H; try contradiction; split; discriminate.
Qed.
Print Assumptions C53_calm.

(** The one gap: [Sign] takes flags, and on an ML-DSA device the flag for raw messages
    makes it send a request that is too short.  This ends the simulator in every state;
    no later call gets an answer. *)
Theorem C53_sign_flag_refuted :
  forall cf R (pr : primitives R) chain issuer serial ski c h label flags tbs loc w,
    config_ok cf -> chain_fits chain -> (length chain < 2048 * (fuel cf - 1))%nat ->
    reachable cf (w_st w) -> u32 loc -> made_for cf c -> cl_kind c = FullMldsa ->
    byte_string 16 h -> byte_string 48 label -> byte_string 64 tbs -> u32 flags -> N.testbit flags 0 = true ->
    go_do _ (sim_send cf R pr chain issuer serial ski loc) c (GcSign h label flags tbs) (Some w) = (GoErr GoShort, None) /\
    forall loc2 c2 q2, exists e, go_do _ (sim_send cf R pr chain issuer serial ski loc2) c2 q2 None = (GoErr e, None).
Proof.
  intros cf R pr chain issuer serial ski c h label flags tbs loc w Hcf HC HF Hr Ul (S & Ec & Ep) Ek Bh Bl Bt Uf B. split.
  - cbn [go_do]. rewrite label_digest, data_message, Ek. cbn [label_size message_size]. rewrite (proj1 Bl), (proj1 Bt). cbn [Nat.eqb negb].
    unfold go_sign_abi. rewrite Ek, Ec, Ep. cbn [codes_v09 gc_sign]. unfold go_exec.
    set (msg := le_bytes 4 1146111299 ++ _).
    assert (Pm : prof cf = Mldsa87).
    { destruct S as [Sp _ _]. rewrite Ek in Sp. unfold own_profile in Sp. cbn [kind_profile] in Sp. destruct (prof cf); try discriminate Sp; reflexivity. }
    assert (Bm : all_bytes (le_bytes 4 loc ++ msg)).
    { unfold msg. rewrite !all_bytes_app. repeat split; try apply all_bytes_le_bytes; first [apply Bh|apply Bl|apply Bt]. }
    set (cn := {| cn_read := Some (le_bytes 4 loc ++ msg); cn_open := true |}).
    destruct (handle_request cf R pr chain issuer serial ski cn w) as [a w'] eqn:E.
    destruct (handle_spec cf Hcf R pr chain issuer serial ski HC HF cn w a w' Hr ltac:(intros m Q; injection Q as <-; exact Bm) E) as [_ H2].
    assert (NB : forall l cmd, ~ brings cf cn l cmd).
    { intros l cmd (m & b & Em & _ & E3 & _ & Hq).
      assert (Q : m = le_bytes 4 loc ++ msg) by (change (cn_read cn) with (Some (le_bytes 4 loc ++ msg)) in Em; congruence). rewrite Q in E3.
      rewrite firstn_all2 in E3.
      - apply app_inj_length in E3 as [_ <-]; [|rewrite !length_le_bytes; reflexivity].
        revert Hq. apply raw_flag; first [exact Pm|exact Bh|apply Bl|exact Uf|apply Bt|exact B].
      - unfold msg. rewrite !app_length, !length_le_bytes, (proj1 Bh), (proj1 Bl), (proj1 Bt). lia. }
    destruct (H2 NB) as [-> ->]. cbn [sim_send]. fold cn. rewrite E. reflexivity.
  - intros loc2 c2 q2. destruct q2; cbn [go_do]; unfold go_get_profile, go_handle, go_derive_abi, go_certify_abi, go_sign_abi, go_sign_raw;
      repeat match goal with |- exists _, (if ?b then _ else _) = _ => destruct b; [try (eexists; reflexivity)|] end;
      try (destruct (cl_kind c2)); try (eexists; reflexivity).
Qed.
Print Assumptions C53_sign_flag_refuted.

(** There are such devices, states and calls. *)
Example C53_sign_flag_case :
  exists cf c w, config_ok cf /\ prof cf = sim_profile cf /\ reachable cf (w_st w) /\ made_for cf c /\ cl_kind c = FullMldsa /\
    (length ref_chain < 2048 * (fuel cf - 1))%nat /\ N.testbit 1 0 = true /\
    fst (sim_start cf N toy_pr ref_chain [48; 0] [1; 2] (repeat 7 20) sim_all 3) = Ok tt /\
    w = snd (sim_start cf N toy_pr ref_chain [48; 0] [1; 2] (repeat 7 20) sim_all 3).
Proof.
  pose (cf := {| max_handles := 4; feat_p256 := false; feat_p384 := false; feat_mldsa := true; prof := Mldsa87; fuel := 5 |}).
  assert (Hcf : config_ok cf) by (unfold config_ok, cf; cbn; repeat split; lia).
  destruct (C50_start cf N toy_pr ref_chain [48; 0] [1; 2] (repeat 7 20) sim_all 3 Hcf) as (w & E & Hr & _).
  exists cf, {| cl_kind := FullMldsa; cl_codes := codes_v09; cl_profile := 5; cl_major := 0; cl_minor := 13; cl_vendor_id := 0; cl_vendor_sku := 0;
     cl_max_tci := 0; cl_flags := 0 |}, w.
  split; [exact Hcf|]. split; [reflexivity|]. split; [exact Hr|]. split.
  { split; [|split; reflexivity]. constructor; [reflexivity|reflexivity|vm_compute; discriminate]. }
  split; [reflexivity|]. split; [cbn [length ref_chain cf fuel]; lia|]. split; [reflexivity|]. rewrite E. split; reflexivity.
Qed.

(** ** Statuses *)

(** The texts for the errors of the device.  Errors of the platform, of the crypto back end
    and of the validation come with a second code; the client knows only the sum with 0. *)
Theorem C53_status :
  forall e,
    go_status_text (get_error_code e) =
    match e with
    | InternalError _ => TxInternalError | InvalidCommand => TxInvalidCommand | InvalidArgument => TxInvalidArgument
    | SessionExhausted => TxSessionExhausted | InitializationSeedLocked => TxInitializationSeedLock | OutOfMemory => TxOutOfMemory
    | CancelledCommand => TxCancelledCommand | InvalidHandle => TxInvalidHandle | InvalidLocality => TxInvalidLocality
    | HandleDefined => TxHandleDefined | ArgumentNotSupported => TxArgumentNotSupported | AlreadyInitialized => TxAlreadyInitialized
    | InvalidParentLocality => TxInvalidParentLocality | MaxTcis => TxMaxTcis
    | ValidationErr MultipleNormalConnectedComponents => TxValidationError
    | _ => TxUnrecognized (get_error_code e)
    end.
Proof.
  intros e. destruct e as [|c| | | | | | | | | | | | | | | | | | | | | |p|k|v]; try reflexivity.
  - destruct p; reflexivity.
  - destruct k; reflexivity.
  - destruct v; reflexivity.
Qed.
Print Assumptions C53_status.

(** ** An example *)
Definition toy_go : go_client :=
  {| cl_kind := Full256; cl_codes := codes_v09; cl_profile := 3; cl_major := 0; cl_minor := 13; cl_vendor_id := 0; cl_vendor_sku := 0;
     cl_max_tci := 0; cl_flags := 4000055296 |}.
Notation toy_send := (sim_send toy_cf N toy_pr ref_chain [48; 0] [1; 2] (repeat 7 20)).
Definition toy_calls : list (N * go_call) := [(0, GcRotate H0 0); (9, GcDestroy (repeat 4 16)); (0, GcDestroy (repeat 4 16))].
Example C53_case :
  prof toy_cf = sim_profile toy_cf /\ reachable toy_cf (w_st toy_start) /\ made_for toy_cf toy_go /\
  (length [48; 0] <= 128)%nat /\
  Forall (fun x => u32 (fst x) /\ usable (cl_kind toy_go) (snd x)) toy_calls /\
  fst (go_new _ (toy_send 0) Full256 (Some toy_start)) = GoOk toy_go /\
  fst (go_new _ (toy_send 0) Full384 (Some toy_start)) = GoErr GoProfile /\
  fst (go_session toy_send toy_go toy_calls (Some toy_start)) = [GoOk (VHandle (repeat 4 16)); GoErr (GoStatus 0x81); GoOk VNone].
Proof.
  split; [reflexivity|]. split; [apply C50_case|]. split.
  { split; [|split; reflexivity]. constructor; [reflexivity|reflexivity|vm_compute; discriminate]. }
  split; [cbn; lia|]. split.
  { unfold toy_calls. repeat (apply Forall_cons; [split; [reflexivity|repeat split; repeat constructor]|]). apply Forall_nil. }
  split; [vm_compute; reflexivity|]. split; vm_compute; reflexivity.
Qed.

(** * C54: the certificate chain *)

(** With any device that hands out a chain in pieces, the client gets the whole chain if its
    length is no multiple of 2048 bytes; otherwise this depends on the status for a request
    at the end: it has to be InvalidArgument. *)
Theorem C54_chain :
  forall T (send : bytes -> T -> option bytes * T) c chain st fine n t,
    chain_fits chain -> u32 st -> st <> 0 -> serves_chain send c chain st fine -> fine t ->
    N.of_nat (length chain) / 2048 < N.of_nat n ->
    exists t', fine t' /\
      go_chain T send c n t =
      (if N.eqb (N.of_nat (length chain) mod 2048) 0 && negb (N.eqb st 3) then GoErr (GoStatus st)
       else if Nat.eqb (length chain) 0 then GoErr GoEmptyChain else GoOk chain, t').
Proof.
  intros T send c chain st fine n t HC Ust Nst HS Ft Hn.
  destruct (chain_spec T send c chain st fine HC Ust Nst HS n t Ft Hn) as (t' & Ft' & E). exists t'. split; [exact Ft'|]. rewrite E. f_equal.
  unfold fetched. destruct (N.eqb_spec (N.of_nat (length chain) mod 2048) 0) as [M|M]; cbn [andb].
  - destruct (N.eqb st 3); reflexivity.
  - destruct (Nat.eqb_spec (length chain) 0) as [Z|Z]; [|reflexivity]. rewrite Z in M. exfalso. apply M. reflexivity.
Qed.
Print Assumptions C54_chain.

(** The full claim, which does not hold: the client gets the whole chain of the simulator.
    It does for every chain whose length is no multiple of 2048, in every reachable
    state, and the device is not changed. *)
Theorem C54_simulator_partial :
  forall cf R (pr : primitives R) chain issuer serial ski c loc w n,
    config_ok cf -> chain_fits chain -> (length chain < 2048 * (fuel cf - 1))%nat -> (length issuer <= 128)%nat -> all_bytes chain ->
    reachable cf (w_st w) -> u32 loc -> made_for cf c -> N.of_nat (length chain) / 2048 < N.of_nat n ->
    N.of_nat (length chain) mod 2048 <> 0 ->
    go_chain _ (sim_send cf R pr chain issuer serial ski loc) c n (Some w) = (GoOk chain, Some w).
Proof.
  intros cf R pr chain issuer serial ski c loc w n Hcf HC HF HI HB Hr Ul (S & Ec & Ep) Hn HM.
  destruct (C54_chain _ _ c chain _ _ n (Some w) HC (code_u32 (PlatformErr PECertificateChain)) ltac:(discriminate)
    (sim_serves cf Hcf R pr chain issuer serial ski HC HF HI c loc w HB Hr Ul Ec Ep) eq_refl Hn) as (t' & -> & E).
  rewrite E. rewrite (proj2 (N.eqb_neq _ _) HM). cbn [andb].
  destruct (Nat.eqb_spec (length chain) 0) as [Z|Z]; [|reflexivity]. rewrite Z in HM. exfalso. apply HM. reflexivity.
Qed.
Print Assumptions C54_simulator_partial.

(** A chain whose length is a multiple of 2048 cannot be read: the reference platform
    answers a request at its end with an error of its own. *)
Theorem C54_simulator_refuted :
  forall cf R (pr : primitives R) chain issuer serial ski c loc w n,
    config_ok cf -> chain_fits chain -> (length chain < 2048 * (fuel cf - 1))%nat -> (length issuer <= 128)%nat -> all_bytes chain ->
    reachable cf (w_st w) -> u32 loc -> made_for cf c -> N.of_nat (length chain) / 2048 < N.of_nat n ->
    N.of_nat (length chain) mod 2048 = 0 ->
    go_chain _ (sim_send cf R pr chain issuer serial ski loc) c n (Some w) = (GoErr (GoStatus 0x01000001), Some w).
Proof.
  intros cf R pr chain issuer serial ski c loc w n Hcf HC HF HI HB Hr Ul (S & Ec & Ep) Hn HM.
  destruct (C54_chain _ _ c chain _ _ n (Some w) HC (code_u32 (PlatformErr PECertificateChain)) ltac:(discriminate)
    (sim_serves cf Hcf R pr chain issuer serial ski HC HF HI c loc w HB Hr Ul Ec Ep) eq_refl Hn) as (t' & -> & E).
  rewrite E. rewrite (proj2 (N.eqb_eq _ _) HM). reflexivity.
Qed.
Print Assumptions C54_simulator_refuted.

(** A device that reports a size above 2048 makes the client panic; one that always hands
    out full pieces keeps it in the loop for ever. *)
Theorem C54_hostile_refuted :
  (exists send : bytes -> unit -> option bytes * unit, forall c n, fst (go_chain unit send c (S n) tt) = GoPanic) /\
  (exists send : bytes -> unit -> option bytes * unit, forall c n, fst (go_chain unit send c n tt) = GoFuel).
Proof.
  assert (X : forall z c off, z < 2 ^ 32 ->
    go_exec unit (fun _ t => (Some ([82; 69; 80; 68] ++ le_bytes 4 0 ++ le_bytes 4 3 ++ le_bytes 4 z ++ repeat 1 (N.to_nat 2048)), t))
      (gc_chain (cl_codes c)) (cl_profile c) (le_bytes 4 off ++ le_bytes 4 2048) [4%nat; N.to_nat 2048] tt
    = (GoOk (3, [le_bytes 4 z; repeat 1 (N.to_nat 2048)], []), tt)).
  { intros z c off Hz. unfold go_exec.
    rewrite (read_fields_at [4; 4; 4]%nat [[82; 69; 80; 68]; le_bytes 4 0; le_bytes 4 3] _ (le_bytes 4 z ++ repeat 1 (N.to_nat 2048))) by reflexivity.
    change (le_val [82; 69; 80; 68]) with 1146111314. change (le_val (le_bytes 4 0)) with 0. cbn [N.eqb Pos.eqb negb].
    rewrite (read_fields_at [4; N.to_nat 2048]%nat [le_bytes 4 z; repeat 1 (N.to_nat 2048)] _ []);
      [reflexivity|cbn [concat]; rewrite !app_nil_r; reflexivity|cbn [map]; rewrite repeat_length; reflexivity]. }
  split.
  - exists (fun _ t => (Some ([82; 69; 80; 68] ++ le_bytes 4 0 ++ le_bytes 4 3 ++ le_bytes 4 2049 ++ repeat 1 (N.to_nat 2048)), t)).
    intros c n. unfold go_chain. cbn [go_chain_loop]. rewrite X by reflexivity. rewrite le4 by reflexivity. reflexivity.
  - exists (fun _ t => (Some ([82; 69; 80; 68] ++ le_bytes 4 0 ++ le_bytes 4 3 ++ le_bytes 4 2048 ++ repeat 1 (N.to_nat 2048)), t)).
    intros c n. unfold go_chain.
    match goal with |- fst (go_chain_loop unit ?s c n _ _ tt) = _ => enough (L : forall off acc, fst (go_chain_loop unit s c n off acc tt) = GoFuel) by apply L end.
    induction n as [|n IH]; intros off acc; [reflexivity|].
    cbn [go_chain_loop]. rewrite X by reflexivity. rewrite le4 by reflexivity. cbn [N.ltb N.compare Pos.compare Pos.compare_cont]. apply IH.
Qed.
Print Assumptions C54_hostile_refuted.

(** The chain of the example is read in one piece. *)
Example C54_case :
  all_bytes ref_chain /\ chain_fits ref_chain /\ (length ref_chain < 2048 * (fuel toy_cf - 1))%nat /\
  N.of_nat (length ref_chain) / 2048 < 1 /\ N.of_nat (length ref_chain) mod 2048 <> 0 /\
  go_chain _ (toy_send 0) toy_go 1 (Some toy_start) = (GoOk ref_chain, Some toy_start) /\
  exists chain, length chain = N.to_nat 2048 /\ all_bytes chain /\ chain_fits chain /\ (length chain < 2048 * (fuel toy_cf - 1))%nat.
Proof.
  assert (A : all_bytes ref_chain) by (repeat constructor).
  assert (F : (length ref_chain < 2048 * (fuel toy_cf - 1))%nat) by (cbn [length ref_chain toy_cf fuel]; lia).
  split; [exact A|]. split; [discriminate|]. split; [exact F|]. split; [reflexivity|]. split; [discriminate|]. split.
  - apply C54_simulator_partial; first [exact toy_cf_ok|discriminate|exact F|cbn; lia|exact A|apply C53_case|reflexivity|discriminate].
  - exists (repeat 0 (N.to_nat 2048)). rewrite repeat_length. split; [reflexivity|]. split; [apply all_bytes_zero|].
    unfold chain_fits. rewrite repeat_length. split; [vm_compute; discriminate|]. cbn [toy_cf fuel]. lia.
Qed.
