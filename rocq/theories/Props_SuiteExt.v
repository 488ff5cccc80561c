(** Props_SuiteExt.v -- what the verification suite checks of the extensions of a certificate
    (verification/testing/certifyKey.go, certs.go).  Property C64. *)
From Verif Require Import Base Errors Types StateOps Env Wire Instance Commands Response X509 X509Cert Der X509Spec RustCrypto DefaultPlatform Simulator GoClient Suite SuiteChain SuiteExt
  Lib Spec Forest Walk X509Out SuiteProofs SuiteChainProofs SuiteExtProofs.
From Verif Require Toy Props_Measure.
Local Open Scope N_scope.

(** The first extension with this identifier has this criticality, and Go reads this value
    from it; or there is none. *)
Definition given {A} (l : list go_ext) (id : oid) (critical : bool) (un : bytes -> A * bool) (v : A) : Prop :=
  exists e before after, l = before ++ e :: after /\ (forall x, In x before -> ex_id x <> id) /\ ex_id e = id /\ ex_critical e = critical /\ un (ex_value e) = (v, true).
Definition missing (l : list go_ext) (id : oid) : Prop := forall e, In e l -> ex_id e <> id.

(** The first 20 octets of the hash of the public key, as it is in the certificate. *)
Definition identifies (sha256 sha384 : bytes -> bytes) (x y ski : bytes) : Prop :=
  (length x = 32%nat /\ ski = firstn 20 (sha256 ([4] ++ x ++ y))) \/ (length x = 48%nat /\ ski = firstn 20 (sha384 ([4] ++ x ++ y))) \/
  (length x = N.to_nat 2592 /\ ski = firstn 20 (sha384 x)).

(** What passes: [ca] is what BasicConstraints says, no if there is none. *)
Record passes (U : unmarshal) sha256 sha384 (l : list go_ext) (label : option bytes) (pub : option (bytes * bytes)) (x509 : bool) (issuer_ski : option bytes)
  (expected critical ca : bool) : Prop := {
  pa_constraints : (missing l [2; 5; 29; 19] /\ ca = false) \/ given l [2; 5; 29; 19] true (un_constraints U) ca;
  pa_expected : ca = true -> expected = true;
  pa_usages : exists us, given l [2; 5; 29; 37] true (un_usages U) us /\ In (if ca then [2; 23; 133; 5; 4; 100; 12] else [2; 23; 133; 5; 4; 100; 9]) us;
  pa_label : forall v, label = Some v -> given l [2; 23; 133; 5; 4; 4] critical (un_ueid U) (Some v);
  pa_aki : x509 = true -> exists k, given l [2; 5; 29; 35] false (un_aki U) (Some k) /\ issuer_ski = Some k;
  pa_ski : x509 = true -> ca = true -> exists ski, given l [2; 5; 29; 14] false (un_ski U) (Some ski) /\ forall x y, pub = Some (x, y) -> identifies sha256 sha384 x y ski;
  pa_no_ski : x509 = true -> ca = false -> missing l [2; 5; 29; 14] \/ given l [2; 5; 29; 14] false (un_ski U) None;
  pa_tcbs : missing l [2; 23; 133; 5; 4; 5] \/ exists tcbs, given l [2; 23; 133; 5; 4; 5] critical (un_tcbs U) tcbs /\ forall t, In t tcbs -> t = [] \/ t = [0];
  pa_key_usage : exists bits, given l [2; 5; 29; 15] true (un_bits U) bits /\ forall i, (i < 9)%nat -> nth i bits false = orb (Nat.eqb i 0) (andb ca (Nat.eqb i 5))
}.

Lemma given_is {A} l id critical (un : bytes -> A * bool) v allowed : (forall c, allowed c = true <-> c = critical) ->
  (exists e, first_is l id e /\ allowed (ex_critical e) = true /\ un (ex_value e) = (v, true)) <-> given l id critical un v.
Proof.
  intros HA. split.
  - intros (e & (a & z & E & H & I) & C & V). exists e, a, z. apply HA in C. auto 10.
  - intros (e & a & z & E & H & I & C & V). exists e. split; [exists a, z; auto|]. split; [apply HA; exact C|exact V].
Qed.
Lemma yes_is c : (fun c : bool => c) c = true <-> c = true. Proof. reflexivity. Qed.
Lemma no_is c : negb c = true <-> c = false. Proof. apply negb_true_iff. Qed.
Lemma eqb_is k c : Bool.eqb k c = true <-> c = k. Proof. rewrite eqb_true_iff. split; auto. Qed.

Lemma usage_bits (ca : bool) (bits : list bool) : usage_of 9 0 bits = (if ca then 33 else 1) <-> forall i, (i < 9)%nat -> nth i bits false = orb (Nat.eqb i 0) (andb ca (Nat.eqb i 5)).
Proof.
  assert (E : usage_of 9 0 bits = usage_of 9 0 [nth 0 bits false; nth 1 bits false; nth 2 bits false; nth 3 bits false; nth 4 bits false; nth 5 bits false; nth 6 bits false; nth 7 bits false; nth 8 bits false]).
  { do 9 (destruct bits as [|? bits]; [reflexivity|]). reflexivity. }
  rewrite E. split.
  - intros H. assert (X : [nth 0 bits false; nth 1 bits false; nth 2 bits false; nth 3 bits false; nth 4 bits false; nth 5 bits false; nth 6 bits false; nth 7 bits false; nth 8 bits false]
      = [true; false; false; false; false; ca; false; false; false]).
    { revert H. generalize (nth 0 bits false), (nth 1 bits false), (nth 2 bits false), (nth 3 bits false), (nth 4 bits false), (nth 5 bits false), (nth 6 bits false), (nth 7 bits false), (nth 8 bits false).
      intros [] [] [] [] [] [] [] [] []; destruct ca; vm_compute; intros H; first [reflexivity|discriminate H]. }
    injection X as X0 X1 X2 X3 X4 X5 X6 X7 X8. intros i Hi. do 9 (destruct i as [|i]; [rewrite ?andb_false_r, ?andb_true_r; assumption|]). lia.
  - intros H. rewrite (H 0%nat), (H 1%nat), (H 2%nat), (H 3%nat), (H 4%nat), (H 5%nat), (H 6%nat), (H 7%nat), (H 8%nat) by lia. destruct ca; reflexivity.
Qed.

(** checkCertificateExtension has nothing to say exactly if the extensions pass; it does not
    use the device and never panics. *)
Theorem C64_check :
  forall T U sha256 sha384 l label pub x509 issuer_ski expected critical (b : bench T),
    exists o cs, check_extensions T U sha256 sha384 l label pub x509 issuer_ski expected critical b = (o, cs, b) /\ ~ In Crashed cs /\
      (cs = [] <-> exists ca, passes U sha256 sha384 l label pub x509 issuer_ski expected critical ca).
Proof.
  intros T U sha256 sha384 l label pub x509 issuer_ski expected critical b.
  destruct (extensions_says T U sha256 sha384 l label pub x509 issuer_ski expected critical b) as (o & cs & E & H & _ & N).
  exists o, cs. split; [exact E|]. split; [exact N|]. rewrite H. clear.
  unfold get_constraints, get_usages, get_ueid, get_ski, get_aki, get_tcbs.
  assert (KU : forall ca : bool, get_key_usage U l = (if ca then 33 else 1, true) <-> exists bits, given l [2; 5; 29; 15] true (un_bits U) bits /\ forall i, (i < 9)%nat -> nth i bits false = orb (Nat.eqb i 0) (andb ca (Nat.eqb i 5))).
  { intros ca. unfold get_key_usage. destruct (get_extension _ _ _ _ l) as [bits ok] eqn:G. split.
    - destruct ok; [|intros X; destruct ca; discriminate X]. intros [= X]. apply get_ok in G as [[_ ->]|G]; [destruct ca; discriminate X|].
      exists bits. split; [apply (given_is _ _ _ _ _ _ yes_is); exact G|apply usage_bits; exact X].
    - intros (bits' & G' & X). apply (given_is _ _ _ _ _ _ yes_is) in G'. assert (Y : get_extension [] OidKeyUsage (fun c => c) (un_bits U) l = (bits', true)) by (apply get_ok; right; exact G').
      rewrite G in Y. injection Y as -> ->. apply usage_bits in X. rewrite X. reflexivity. }
  split.
  - intros (ca & us & E1 & E2 & [E3 E4] & E5 & E6 & (tcbs & E7 & E8) & E9). exists ca. split.
    + apply get_ok in E1 as [E1|E1]; [left; exact E1|right; apply (given_is _ _ _ _ _ _ yes_is); exact E1].
    + exact E2.
    + apply get_ok in E3 as [[_ ->]|E3]; [destruct E4|]. exists us. split; [apply (given_is _ _ _ _ _ _ yes_is); exact E3|]. destruct ca; exact E4.
    + intros v Hv. specialize (E5 v Hv). apply get_ok in E5 as [[_ X]|E5]; [discriminate X|]. apply (given_is _ _ _ _ _ _ (eqb_is critical)). exact E5.
    + intros X. destruct (E6 X) as [_ (k & K & I)]. exists k. split; [|exact I]. apply get_ok in K as [[_ Y]|K]; [discriminate Y|]. apply (given_is _ _ _ _ _ _ no_is). exact K.
    + intros X ->. destruct (E6 X) as [(ski & K & I) _]. exists ski. split.
      * apply get_ok in K as [[_ Y]|K]; [discriminate Y|]. apply (given_is _ _ _ _ _ _ no_is). exact K.
      * intros x y ->. exact (I _ eq_refl).
    + intros X ->. destruct (E6 X) as [K _]. apply get_ok in K as [[K _]|K]; [left; exact K|right; apply (given_is _ _ _ _ _ _ no_is); exact K].
    + apply get_ok in E7 as [[E7 _]|E7]; [left; exact E7|right]. exists tcbs. split; [apply (given_is _ _ _ _ _ _ (eqb_is critical)); exact E7|exact E8].
    + apply KU. exact E9.
  - intros (ca & [A1 A2 (us & A3 & A4) A5 A6 A7 A8 A9 A10]). exists ca, us. split.
    { apply get_ok. destruct A1 as [A1|A1]; [left; exact A1|right; apply (given_is _ _ _ _ _ _ yes_is); exact A1]. }
    split; [exact A2|]. split; [split; [apply get_ok; right; apply (given_is _ _ _ _ _ _ yes_is); exact A3|destruct ca; exact A4]|].
    split; [intros v Hv; apply get_ok; right; apply (given_is _ _ _ _ _ _ (eqb_is critical)); apply A5; exact Hv|]. split.
    { intros X. split.
      - destruct ca.
        + destruct (A7 X eq_refl) as (ski & K & I). exists ski. split; [apply get_ok; right; apply (given_is _ _ _ _ _ _ no_is); exact K|]. intros [x y] Hp. exact (I x y Hp).
        + apply get_ok. destruct (A8 X eq_refl) as [K|K]; [left; split; [exact K|reflexivity]|right; apply (given_is _ _ _ _ _ _ no_is); exact K].
      - destruct (A6 X) as (k & K & I). exists k. split; [|exact I]. apply get_ok. right. apply (given_is _ _ _ _ _ _ no_is). exact K. }
    split; [|apply KU; exact A10]. destruct A9 as [A9|(tcbs & A9 & B)].
    + exists []. split; [apply get_ok; left; split; [exact A9|reflexivity]|intros t []].
    + exists tcbs. split; [apply get_ok; right; apply (given_is _ _ _ _ _ _ (eqb_is critical)); exact A9|exact B].
Qed.
Print Assumptions C64_check.

(** An extension as RFC 5280 encodes it, and the extensions of DPE's certificates (X509Spec.v,
    C29 and C43) as Go sees them. *)
Definition as_der (e : go_ext) : der := SEQUENCE ([OID (ex_id e)] ++ (if ex_critical e then [TRUE] else []) ++ [OCTETS (ex_value e)]).
Definition go (id : oid) (critical : bool) (v : der) : go_ext := {| ex_id := id; ex_critical := critical; ex_value := enc v |}.
Definition dpe_extensions (x509 : bool) (d : ext_data) (infos : list der) : list go_ext :=
  [go id_dice_MultiTcbInfo (xd_critical d) (SEQUENCE infos); go id_dice_Ueid (xd_critical d) (SEQUENCE [OCTETS (xd_ueid d)]);
   go id_ce_basicConstraints true (SEQUENCE (if xd_ca d then [TRUE] else [])); go id_ce_keyUsage true (Prim 0x03 (if xd_ca d then [2; 0x84] else [7; 0x80]));
   go id_ce_extKeyUsage true (SEQUENCE [OID (if xd_ca d then id_dice_kp_eca else id_dice_kp_attestLoc)])]
  ++ (if xd_ca d && x509 then [go id_ce_subjectKeyIdentifier false (OCTETS (xd_ski d))] else [])
  ++ (if x509 then [go id_ce_authorityKeyIdentifier false (SEQUENCE [CTX_PRIM 0 (xd_aki d)])] else [])
  ++ match xd_san d with Some o => [go id_ce_subjectAltName false (SEQUENCE [CTX 0 [Prim 0x06 (on_oid o); CTX 0 [UTF8 (on_value o)]]])] | None => [] end.
(** Go reads the values of these extensions as they are meant. *)
Record go_reads (U : unmarshal) (p : profile) (d : ext_data) (ts : list (bool * tci)) : Prop := {
  gr_constraints : un_constraints U (enc (SEQUENCE (if xd_ca d then [TRUE] else []))) = (xd_ca d, true);
  gr_ski : un_ski U (enc (OCTETS (xd_ski d))) = (Some (xd_ski d), true);
  gr_aki : un_aki U (enc (SEQUENCE [CTX_PRIM 0 (xd_aki d)])) = (Some (xd_aki d), true);
  gr_ueid : un_ueid U (enc (SEQUENCE [OCTETS (xd_ueid d)])) = (Some (xd_ueid d), true);
  gr_usages : un_usages U (enc (SEQUENCE [OID (if xd_ca d then id_dice_kp_eca else id_dice_kp_attestLoc)])) = ([if xd_ca d then id_dice_kp_eca else id_dice_kp_attestLoc], true);
  gr_tcbs : un_tcbs U (enc (SEQUENCE (map (fun rt => tcb_info p (fst rt) (snd rt)) ts))) = (map (fun rt : bool * tci => if fst rt then [0] else []) ts, true);
  gr_bits : un_bits U (enc (Prim 0x03 (if xd_ca d then [2; 0x84] else [7; 0x80]))) = (if xd_ca d then [true; false; false; false; false; true] else [true], true)
}.
Lemma enc_extension id critical v : enc (extension id critical v) = enc (as_der (go id critical v)).
Proof.
  unfold extension, as_der, go, SEQUENCE, OCTETS_OF, OCTETS. cbn [ex_id ex_critical ex_value]. destruct critical; cbn [app]; unfold enc; cbn [enc_with map concat app]; rewrite !app_nil_r; reflexivity.
Qed.

(** The extensions of every certificate and request that DPE writes pass, with the label in
    their UEID, the key identifier of their issuer, and, for a CA, a key identifier of the
    key; whatever the measurements and the subject alternative name. *)
Theorem C64_dpe :
  forall T U p sha256 sha384 x509 d ts pub expected (b : bench T),
    go_reads U p d ts -> (xd_ca d = true -> expected = true) ->
    (xd_ca d = true -> forall x y, pub = Some (x, y) -> identifies sha256 sha384 x y (xd_ski d)) ->
    let infos := map (fun rt => tcb_info p (fst rt) (snd rt)) ts in
    enc (extensions x509 d infos) = enc (SEQUENCE (map as_der (dpe_extensions x509 d infos))) /\
    check_extensions T U sha256 sha384 (dpe_extensions x509 d infos) (Some (xd_ueid d)) pub x509 (Some (xd_aki d)) expected (xd_critical d) b = (Some tt, [], b).
Proof.
  intros T U p sha256 sha384 x509 d ts pub expected b GR HE HK infos. split.
  { assert (Q : forall l l', map enc l = map enc l' -> enc (SEQUENCE l) = enc (SEQUENCE l')).
    { intros l l' Q. unfold SEQUENCE, enc in *. cbn [enc_with]. rewrite Q. reflexivity. }
    apply Q. clear Q. unfold other_extensions, dpe_extensions, opt_san, ext_multi_tcb_info, ext_ueid, ext_basic_constraints, ext_key_usage, ext_extended_key_usage,
      ext_subject_key_identifier, ext_authority_key_identifier, ext_subject_alt_name.
    destruct (xd_san d), (xd_ca d), x509; cbn [andb app map]; rewrite ?enc_extension; reflexivity. }
  destruct (extensions_says T U sha256 sha384 (dpe_extensions x509 d infos) (Some (xd_ueid d)) pub x509 (Some (xd_aki d)) expected (xd_critical d) b) as (o & cs & E & H & S & _).
  assert (C : cs = []).
  { apply H. exists (xd_ca d), [if xd_ca d then id_dice_kp_eca else id_dice_kp_attestLoc].
    assert (G0 : get_constraints U (dpe_extensions x509 d infos) = (xd_ca d, true)) by (apply (gr_constraints _ _ _ _ GR)).
    split; [exact G0|]. split; [exact HE|]. split; [split; [apply (gr_usages _ _ _ _ GR)|left; destruct (xd_ca d); reflexivity]|].
    split. { intros v [= <-]. unfold get_ueid, dpe_extensions. cbn [app]. unfold get_extension. cbn [go ex_id ex_critical ex_value].
      rewrite (proj2 (same_oid_neq _ _)) by discriminate. rewrite (proj2 (same_oid_eq _ _)) by reflexivity. rewrite Bool.eqb_reflx. apply (gr_ueid _ _ _ _ GR). }
    split.
    { intros ->. split.
      - destruct (xd_ca d) eqn:CA.
        + exists (xd_ski d). split; [unfold get_ski, dpe_extensions; rewrite CA; apply (gr_ski _ _ _ _ GR)|]. intros [x y] Hp. exact (HK eq_refl x y Hp).
        + unfold get_ski, dpe_extensions. rewrite CA. destruct (xd_san d); reflexivity.
      - exists (xd_aki d). split; [|reflexivity]. unfold get_aki, dpe_extensions. destruct (xd_ca d); apply (gr_aki _ _ _ _ GR). }
    split.
    { exists (map (fun rt : bool * tci => if fst rt then [0] else []) ts). split.
      - unfold get_tcbs, dpe_extensions. cbn [app]. unfold get_extension. cbn [go ex_id ex_critical ex_value].
        rewrite (proj2 (same_oid_eq _ _)) by reflexivity. rewrite Bool.eqb_reflx. apply (gr_tcbs _ _ _ _ GR).
      - intros t I. apply in_map_iff in I as ([[] t'] & <- & _); [right|left]; reflexivity. }
    assert (Y : get_extension [] OidKeyUsage (fun c => c) (un_bits U) (dpe_extensions x509 d infos) = (if xd_ca d then [true; false; false; false; false; true] else [true], true)).
    { apply (gr_bits _ _ _ _ GR). }
    unfold get_key_usage. rewrite Y. destruct (xd_ca d); reflexivity. }
  rewrite E, (S C), C. reflexivity.
Qed.
Print Assumptions C64_dpe.

(** getTcbInfoForHandle, by which the tests of DeriveContext read a context's measurements,
    takes from the certificate of every context (whose MultiTcbInfo, as C29 and C43 say, is
    about its chain from the root) the element that is about the context itself; there is
    always one. *)
Theorem C64_own :
  forall s i c cts p recursive A (read : der -> A),
    lineage s i cts -> at_slot s i c ->
    last_tcb (map read (chain_infos p recursive cts)) = Some (read (tcb_info p recursive (c_tci c))).
Proof.
  intros s i c cts p recursive A read (l & P & F) H. destruct (path_head _ _ _ P) as (l' & ->). inversion F as [|? c' ? r H' F']; subst.
  pose proof (at_det _ _ _ _ H H') as <-. unfold chain_infos. cbn [rev]. rewrite !map_app. cbn [map].
  unfold last_tcb. rewrite app_length, Nat.add_1_r. cbn [Nat.eqb length]. rewrite Nat.sub_succ, Nat.sub_0_r, nth_error_app2, Nat.sub_diag by lia. reflexivity.
Qed.
Print Assumptions C64_own.

(** ** Cases *)
(** A reading of values that serves for examples: the first octet of a value decides. *)
Definition toy_un : unmarshal := {|
  un_constraints := fun v => (N.eqb (hd 0 v) 1, true); un_ski := fun v => (Some v, true); un_aki := fun v => (Some v, true); un_ueid := fun v => (Some v, true);
  un_usages := fun v => ([OidTcgDiceKpAttestLoc; OidTcgDiceKpEca], true); un_tcbs := fun v => (map (fun n => [n]) v, true);
  un_bits := fun v => ([true; false; false; false; false; N.eqb (hd 0 v) 1], true) |}.
Definition ext id critical v : go_ext := {| ex_id := id; ex_critical := critical; ex_value := v |}.
Definition usual (ca : bool) : list go_ext :=
  [ext OidTcgDiceMultiTcbInfo false [0; 0]; ext OidTcgDiceUeid false [7]; ext OidBasicConstraints true [if ca then 1 else 0]; ext OidKeyUsage true [if ca then 1 else 0];
   ext OidExtKeyUsage true []; ext OidAuthorityKeyIdentifier false [9]] ++ if ca then [ext OidSubjectKeyIdentifier false [8]] else [].
Notation said l label expected := (match check_extensions unit toy_un (fun _ => [8]) (fun _ => [8]) l label None true (Some [9]) expected false {| bn_device := tt; bn_locality := 0; bn_initialized := false |}
  with (_, cs, _) => cs end).

(** What the comments of the code say, and what does not hold: that BasicConstraints MUST be
    included (certifyKey.go:503), and that the certificate is a CA where one is expected
    (deriveContext.go:121, 205).  Without BasicConstraints and without the measurements of
    MultiTcbInfo a certificate passes; and a certificate that is no CA passes as that of an
    exported CDI. *)
Theorem C64_missing_refuted :
  exists U sha256 sha384 l label issuer_ski,
    missing l [2; 5; 29; 19] /\ missing l [2; 23; 133; 5; 4; 5] /\
    forall T (b : bench T), check_extensions T U sha256 sha384 l (Some label) None true (Some issuer_ski) false false b = (Some tt, [], b).
Proof.
  exists toy_un, (fun _ => [8]), (fun _ => [8]), [ext OidTcgDiceUeid false [7]; ext OidKeyUsage true [0]; ext OidExtKeyUsage true []; ext OidAuthorityKeyIdentifier false [9]], [7], [9].
  split; [|split; [|reflexivity]]; intros e I; repeat destruct I as [<-|I]; try discriminate; destruct I.
Qed.
Print Assumptions C64_missing_refuted.
Theorem C64_ca_refuted :
  exists U sha256 sha384 l issuer_ski,
    given l [2; 5; 29; 19] true (un_constraints U) false /\
    forall T (b : bench T), check_extensions T U sha256 sha384 l None None true (Some issuer_ski) true false b = (Some tt, [], b).
Proof.
  exists toy_un, (fun _ => [8]), (fun _ => [8]), (usual false), [9]. split; [|reflexivity].
  apply (given_is _ _ _ _ _ _ yes_is). exists (ext OidBasicConstraints true [0]). split; [|split; reflexivity].
  exists [ext OidTcgDiceMultiTcbInfo false [0; 0]; ext OidTcgDiceUeid false [7]]. eexists. split; [reflexivity|]. split; [|reflexivity].
  intros e I; repeat destruct I as [<-|I]; try discriminate; destruct I.
Qed.
Print Assumptions C64_ca_refuted.

(** A leaf and a CA pass; a leaf with another label, a CA where none is expected, and a leaf
    without AuthorityKeyIdentifier do not. *)
Example C64_case :
  said (usual false) (Some [7]) false = [] /\ said (usual true) (Some [7]) true = [] /\ said (usual false) (Some [6]) false = [Failed 332] /\
  said (usual true) (Some [7]) false = [Failed 512] /\ said (firstn 5 (usual false)) (Some [7]) false = [Stopped 494] /\
  said (ext OidTcgDiceMultiTcbInfo false [0; 3] :: usual false) (Some [7]) false = [Failed 409] /\
  exists ca, passes toy_un (fun _ => [8]) (fun _ => [8]) (usual true) (Some [7]) None true (Some [9]) true false ca.
Proof.
  repeat (split; [reflexivity|]).
  destruct (C64_check unit toy_un (fun _ => [8]) (fun _ => [8]) (usual true) (Some [7]) None true (Some [9]) true false {| bn_device := tt; bn_locality := 0; bn_initialized := false |}) as (o & cs & E & _ & H).
  apply H. assert (X : said (usual true) (Some [7]) true = []) by reflexivity. rewrite E in X. exact X.
Qed.

(** Go reads the values of an exported CDI's certificate with two measurements so. *)
Definition some_data : ext_data := {| xd_critical := true; xd_ca := true; xd_ueid := [1; 2]; xd_ski := repeat 8 20; xd_aki := repeat 9 20; xd_san := None |}.
Definition some_tcis : list (bool * tci) := [(true, mkTci 1 (repeat 3 32) (repeat 4 32) 0 5); (false, mkTci 2 (repeat 5 32) (repeat 6 32) 7 0)].
Definition some_un : unmarshal := {|
  un_constraints := fun v => (bytes_eqb v [48; 3; 1; 1; 255], true); un_ski := fun v => (Some (skipn 2 v), true); un_aki := fun v => (Some (skipn 4 v), true);
  un_ueid := fun v => (Some (skipn 4 v), true); un_usages := fun v => ([id_dice_kp_eca], true); un_tcbs := fun v => ([[0]; []], true);
  un_bits := fun v => ([true; false; false; false; false; true], true) |}.
Example C64_dpe_case : go_reads some_un P256Sha256 some_data some_tcis /\ identifies (fun _ => repeat 8 32) (fun _ => []) (repeat 1 32) (repeat 2 32) (xd_ski some_data).
Proof. split; [split; reflexivity|left; split; reflexivity]. Qed.

(** The context of C26_three, the last of a chain of three. *)
Example C64_own_case :
  let s := Toy.toy_state Props_Measure.chain3 in
  exists c, lineage s 2 (Props_Measure.chain_of s 2) /\ length (Props_Measure.chain_of s 2) = 3%nat /\ at_slot s 2 c /\ tci_type (c_tci c) = 8.
Proof.
  intros s. destruct (nth_error (st_contexts s) 2) as [c|] eqn:E; [|vm_compute in E; discriminate E]. exists c.
  split; [apply Props_Measure.chain_of_ok; vm_compute; discriminate|]. split; [vm_compute; reflexivity|]. split; [exact E|].
  vm_compute in E. injection E as <-. reflexivity.
Qed.
