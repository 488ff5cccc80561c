(** Measure.v -- what goes into the measurement hash
    ([compute_measurement_hash], dpe/src/dpe_instance.rs:331-395). *)
From Verif Require Import Base Errors Types StateOps Env Wire Instance Commands Lib Spec Exec Forest
  CommandSpecs Walk.
Local Open Scope nat_scope.

(** ** Specification *)

(** What a context contributes: its measurement record and its X.509
    permission. *)
Definition node_input (c : context) : list bytes :=
  [le_bytes 4 (tci_type (c_tci c)) ++ tci_cumulative (c_tci c) ++ tci_current (c_tci c) ++
   le_bytes 4 (tci_locality (c_tci c)) ++ le_bytes 4 (tci_svn (c_tci c));
   [if c_x509 c then 1%N else 0%N]].

(** The profile description: response header, version 0.13, vendor, capacity,
    features and profile number. *)
Definition info_input (cf : config) (support vid sku : N) : bytes :=
  le_bytes 4 0x44504552 ++ le_bytes 4 0 ++ le_bytes 4 (profile_id (prof cf)) ++
  le_bytes 2 0 ++ le_bytes 2 13 ++ le_bytes 4 vid ++ le_bytes 4 sku ++
  le_bytes 4 (N.of_nat (max_handles cf)) ++ le_bytes 4 support ++ le_bytes 4 (profile_id (prof cf)).

Section Reading.
  Context {P : Type}.
  Variable po : platform_ops P.

  (** Reading the platform's certificate chain from [off] on, 2048 bytes at a
      time, until it reports an error, yields [chunks]. *)
  Inductive chain_read : N -> bytes -> P -> list bytes -> P -> Prop :=
  | cr_end off buf p e b p' :
      po_certificate_chain po off 2048 buf p = (inr e, b, p') ->
      chain_read off buf p [] p'
  | cr_more off buf p n b p1 chunks p' :
      po_certificate_chain po off 2048 buf p = (inl n, b, p1) ->
      (n mod 2 ^ 32 <= 2048)%N -> (off + n mod 2 ^ 32 < 2 ^ 32)%N ->
      chain_read (off + n mod 2 ^ 32)%N (to_buf 2048 b) p1 chunks p' ->
      chain_read off buf p (firstn (N.to_nat (n mod 2 ^ 32)) (to_buf 2048 b) :: chunks) p'.

  (** The platform stops (by an error, or an answer longer than it was asked
      for) within [n] calls and before the 32-bit offset overflows. *)
  Inductive chain_stops : nat -> N -> bytes -> P -> Prop :=
  | cs_end n off buf p e b p' :
      po_certificate_chain po off 2048 buf p = (inr e, b, p') -> chain_stops (S n) off buf p
  | cs_long n off buf p k b p' :
      po_certificate_chain po off 2048 buf p = (inl k, b, p') -> (2048 < k mod 2 ^ 32)%N ->
      chain_stops (S n) off buf p
  | cs_more n off buf p k b p' :
      po_certificate_chain po off 2048 buf p = (inl k, b, p') ->
      (off + k mod 2 ^ 32 < 2 ^ 32)%N ->
      chain_stops n (off + k mod 2 ^ 32)%N (to_buf 2048 b) p' ->
      chain_stops (S n) off buf p.
End Reading.

(** What follows the contexts [cts] of [s]: the profile description [i] if one of
    them asks for it and the chunks [d] of the platform's certificate chain if
    one of them asks for it.  The platform goes from [p] to [p']. *)
Definition extra_input {P} (cf : config) (po : platform_ops P) (s : state) (cts : list context)
           (p : P) (i d : list bytes) (p' : P) : Prop :=
  exists pi,
    ((forall c, In c cts -> c_info c = false) /\ i = [] /\ pi = p \/
     (exists c, In c cts /\ c_info c = true) /\
     exists vid sku p1, po_vendor_id po p = (inl vid, p1) /\ po_vendor_sku po p1 = (inl sku, pi) /\
       i = [info_input cf (st_support s) vid sku]) /\
    ((forall c, In c cts -> c_dice c = false) /\ d = [] /\ p' = pi \/
     (exists c, In c cts /\ c_dice c = true) /\ chain_read po 0 (repeat 0%N 2048) pi d p').

(** ** Proofs *)

Lemma existsb_flag {A} (f : A -> bool) l :
  (existsb f l = true /\ exists c, In c l /\ f c = true) \/
  (existsb f l = false /\ forall c, In c l -> f c = false).
Proof.
  destruct (existsb f l) eqn:E; [left|right]; (split; [reflexivity|]).
  - apply existsb_exists in E. exact E.
  - intros c H. destruct (f c) eqn:Ef; [|reflexivity].
    rewrite <- E. symmetry. apply existsb_exists. eauto.
Qed.

Section Measure.
  Variable cf : config.
  Hypothesis Hcf : config_ok cf.
  Variables C P : Type.
  Variable co : crypto_ops C.
  Variable po : platform_ops P.
  Notation M := (M C P).

  Lemma absorbs_app c a b c1 c2 : absorbs co c a c1 -> absorbs co c1 b c2 -> absorbs co c (a ++ b) c2.
  Proof. induction 1; cbn [app]; intros H2; [exact H2|]. econstructor; eauto. Qed.

  Lemma crypto_inv {A} (f : C -> (A + crypto_error) * C) (w : world C P) r w' :
    crypto f w = (r, w') ->
    exists c', w' = mkWorld (w_st w) c' (w_p w) (w_out w) /\
      ((exists a, r = Ok a /\ f (w_c w) = (inl a, c')) \/ (exists e, r = Err (CryptoErr e) /\ f (w_c w) = (inr e, c'))).
  Proof.
    unfold crypto. destruct (f (w_c w)) as [[a|e] c'] eqn:E; intros H; injection H as <- <-;
      exists c'; split; eauto.
  Qed.
  Lemma platform_inv {A} (f : P -> (A + platform_error) * P) (w : world C P) r w' :
    platform f w = (r, w') ->
    exists p', w' = mkWorld (w_st w) (w_c w) p' (w_out w) /\
      ((exists a, r = Ok a /\ f (w_p w) = (inl a, p')) \/ (exists e, r = Err (PlatformErr e) /\ f (w_p w) = (inr e, p'))).
  Proof.
    unfold platform. destruct (f (w_p w)) as [[a|e] p'] eqn:E; intros H; injection H as <- <-;
      exists p'; split; eauto.
  Qed.

  Lemma hash_nodes_spec s : forest cf s -> forall n r cts it i d (w : world C P) x w',
    remaining cf s r it -> Forall2 (at_slot s) r cts -> length r < n ->
    hash_nodes cf C P co n (st_contexts s) it i d w = (x, w') ->
    w_p w' = w_p w /\
    ((x = Ok (i || existsb c_info cts, d || existsb c_dice cts)%bool /\
      absorbs co (w_c w) (flat_map node_input cts) (w_c w')) \/
     exists e, x = Err (CryptoErr e)).
  Proof.
    intros F. induction n as [|n IH]; intros r cts it i d w x w' R Fa Hn H; [lia|].
    cbn [hash_nodes] in H. inversion Fa as [|y c r' cts' Hc Fr]; subst.
    - destruct (next_none cf s it R) as [E1 _]. destruct (iter_next cf (st_contexts s) it) as [o it'].
      cbn [fst] in E1. subst o. apply ret_inv in H as [-> ->]. split; [reflexivity|].
      left. cbn [existsb flat_map]. rewrite !orb_false_r. split; [reflexivity|constructor].
    - destruct (next_some cf s F y r' it c R Hc) as [E1 E2].
      destruct (iter_next cf (st_contexts s) it) as [o it']. cbn [fst snd] in E1, E2. subst o.
      apply bind_inv in H as [(a1 & w1 & H1 & H)|[(e & H1 & ->)|(k & H1 & ->)]];
        apply crypto_inv in H1 as (c1 & E & [(a & Ea & Hf)|(e' & Ee & Hf)]); try discriminate; subst.
      2:{ split; [reflexivity|]. right. injection Ee as ->. eauto. }
      apply bind_inv in H as [(a2 & w2 & H2 & H)|[(e & H2 & ->)|(k & H2 & ->)]];
        apply crypto_inv in H2 as (c2 & E & [(a' & Ea' & Hf')|(e' & Ee & Hf')]); try discriminate; subst.
      2:{ split; [reflexivity|]. right. injection Ee as ->. eauto. }
      destruct (IH r' cts' it' _ _ _ _ _ E2 Fr ltac:(cbn [length] in Hn; lia) H) as (G1 & G2).
      split; [exact G1|]. destruct G2 as [[-> G2]|G2]; [left|right; exact G2].
      cbn [existsb]. rewrite !orb_assoc. split; [reflexivity|].
      cbn [flat_map]. unfold node_input at 1. cbn [app]. cbn [w_c] in *.
      destruct a, a'. econstructor; [exact Hf|]. econstructor; [exact Hf'|]. exact G2.
  Qed.

  Lemma chain_call_spec off size buf (w : world C P) :
    exists r b p', po_certificate_chain po off size buf (w_p w) = (r, b, p') /\
      cert_chain_call C P po off size buf w =
        (Ok (match r with inl n => inl (n mod 2 ^ 32)%N | inr e => inr e end, to_buf 2048 b),
         mkWorld (w_st w) (w_c w) p' (w_out w)).
  Proof.
    unfold cert_chain_call. destruct (po_certificate_chain po off size buf (w_p w)) as [[r b] p'].
    exists r, b, p'. split; reflexivity.
  Qed.

  Lemma bind_ok {A B} (m : M A) (f : A -> M B) w a w1 : m w = (Ok a, w1) -> bind m f w = f a w1.
  Proof. intros E. unfold bind. rewrite E. reflexivity. Qed.

  Lemma hash_cert_chain_spec n : forall off buf (w : world C P) x w',
    hash_cert_chain C P co po n off buf w = (x, w') ->
    (x = Ok tt /\ exists chunks, chain_read po off buf (w_p w) chunks (w_p w') /\
                                 absorbs co (w_c w) chunks (w_c w')) \/
    (exists e, x = Err (CryptoErr e)) \/ x = Err (InternalError CertChainChunkSliceOob) \/
    (exists k, x = Crash k /\ ~ chain_stops po n off buf (w_p w)).
  Proof.
    induction n as [|n IH]; intros off buf w x w' H; cbn [hash_cert_chain] in H.
    { apply lift_inv in H as [-> ->]. right; right; right. eexists; split; [reflexivity|]. intros X; inversion X. }
    destruct (chain_call_spec off max_chunk_size buf w) as (r & b & p' & E1 & E2).
    rewrite (bind_ok _ _ _ _ _ E2) in H. change max_chunk_size with 2048%N in E1.
    destruct r as [len|e].
    2:{ apply ret_inv in H as [-> ->]. left. split; [reflexivity|]. exists []. split; [|constructor].
        eapply cr_end. exact E1. }
    destruct (N.ltb_spec max_chunk_size (len mod 2 ^ 32)) as [L|L].
    { apply fail_inv in H as [-> ->]. auto. }
    apply bind_inv in H as [(a & w1 & H1 & H)|[(e & H1 & ->)|(k & H1 & ->)]];
      apply crypto_inv in H1 as (c1 & Ew & [(a0 & Ea & Hf)|(e' & Ee & Hf)]); try discriminate; subst.
    2:{ right; left. injection Ee as ->. eauto. }
    destruct (N.leb_spec (2 ^ 32) (off + len mod 2 ^ 32)) as [L2|L2].
    { apply lift_inv in H as [-> ->]. right; right; right. eexists; split; [reflexivity|].
      intros X. inversion X as [? ? ? ? ? ? ? G|? ? ? ? ? ? ? G G1|? ? ? ? ? ? ? G G1 G2]; subst;
        rewrite E1 in G; try discriminate; injection G as <- <- <-; [apply N.lt_nge in G1; exact (G1 L)|lia]. }
    apply IH in H as [(-> & chunks & Hr & Ha)|[H|[->|(k & -> & Hn)]]].
    - left. split; [reflexivity|]. eexists. split; [eapply cr_more; eauto|].
      destruct a0. econstructor; [exact Hf|]. exact Ha.
    - auto.
    - auto.
    - right; right; right. eexists; split; [reflexivity|]. intros X. apply Hn. cbn [w_p].
      inversion X as [? ? ? ? ? ? ? G|? ? ? ? ? ? ? G G1|? ? ? ? ? ? ? G G1 G2]; subst;
        rewrite E1 in G; try discriminate; injection G as <- <- <-; [exfalso; apply N.lt_nge in G1; exact (G1 L)|exact G2].
  Qed.

  Lemma internal_info_spec sup (w : world C P) x w' :
    internal_input_info cf C P po sup w = (x, w') ->
    w_c w' = w_c w /\
    ((exists vid sku p1, x = Ok (info_input cf sup vid sku) /\ po_vendor_id po (w_p w) = (inl vid, p1) /\
        po_vendor_sku po p1 = (inl sku, w_p w')) \/ exists e, x = Err (PlatformErr e)).
  Proof.
    unfold internal_input_info, get_profile. intros H.
    apply bind_inv in H as [(a & w1 & H1 & H)|[(e & H1 & ->)|(k & H1 & ->)]];
      (apply bind_inv in H1 as [(vid & w2 & V & H1)|[(e' & V & E)|(k' & V & E)]];
       apply platform_inv in V as (p1 & Ew & [(v & Ev & Hv)|(e2 & Ee & Hv)]); try discriminate; subst;
       try (split; [reflexivity|]; right; injection Ee as ->; injection E as ->; eauto; fail)).
    - apply bind_inv in H1 as [(sku & w2 & V & H1)|[(e' & V & E)|(k' & V & E)]]; try discriminate.
      apply platform_inv in V as (p2 & Ew & [(v2 & Ev2 & Hv2)|(e2 & Ee & Hv2)]); try discriminate; subst.
      injection Ev as ->. injection Ev2 as ->.
      apply ret_inv in H1 as [E ->]. injection E as ->. apply ret_inv in H as [-> ->].
      split; [reflexivity|]. left. exists v, v2, p1. split; [|split; [exact Hv|exact Hv2]].
      unfold get_profile_resp_bytes, info_input, ok_hdr_bytes, response_magic. rewrite <- !app_assoc. reflexivity.
    - apply bind_inv in H1 as [(sku & w2 & V & H1)|[(e' & V & E)|(k' & V & E)]];
        apply platform_inv in V as (p2 & Ew & [(v2 & Ev2 & Hv2)|(e2 & Ee & Hv2)]); try discriminate; subst.
      split; [reflexivity|]. right. injection Ee as ->; injection E as ->. eauto.
    - apply bind_inv in H1 as [(sku & w2 & V & H1)|[(e' & V & E)|(k' & V & E)]];
        try discriminate;
        apply platform_inv in V as (p2 & Ew & [(v2 & Ev2 & Hv2)|(e2 & Ee & Hv2)]); discriminate.
  Qed.

  (** The digest of a chain, or why there is none. *)
  Theorem cmh_spec i cts (w : world C P) x w' :
    forest cf (w_st w) -> lineage (w_st w) i cts ->
    compute_measurement_hash cf C P co po i w = (x, w') ->
    (exists dg c0 c1 c2 ii dd,
       x = Ok dg /\ co_hasher co (w_c w) = (inl tt, c0) /\ co_hash_initialize co c0 = (inl tt, c1) /\
       extra_input cf po (w_st w) cts (w_p w) ii dd (w_p w') /\
       absorbs co c1 (flat_map node_input cts ++ ii ++ dd) c2 /\
       co_hash_finish co c2 = (inl dg, w_c w')) \/
    (exists e, x = Err (CryptoErr e)) \/
    ((exists c, In c cts /\ c_info c = true) /\ exists e, x = Err (PlatformErr e)) \/
    ((exists c, In c cts /\ c_dice c = true) /\ x = Err (InternalError CertChainChunkSliceOob)) \/
    ((exists c, In c cts /\ c_dice c = true) /\
     exists k p, x = Crash k /\ ~ chain_stops po (fuel cf) 0 (repeat 0%N 2048) p).
  Proof.
    intros F L H. unfold compute_measurement_hash in H.
    apply bind_inv in H as [(u & w1 & H1 & H)|[(e & H1 & ->)|(k & H1 & ->)]];
      apply crypto_inv in H1 as (c0 & Ew & [(a & Ea & Hf0)|(e' & Ee & Hf0)]); try discriminate; subst;
      [|right; left; injection Ee as ->; eauto].
    destruct a. clear u Ea.
    apply bind_inv in H as [(u & w2 & H1 & H)|[(e & H1 & ->)|(k & H1 & ->)]];
      apply crypto_inv in H1 as (c1 & Ew & [(a & Ea & Hf1)|(e' & Ee & Hf1)]); try discriminate; subst;
      [|right; left; injection Ee as ->; eauto].
    destruct a. clear u Ea. cbn [w_c w_st w_p w_out] in *.
    rewrite bind_get_st in H. cbn [w_st] in H.
    destruct L as (l & Hp & Fa).
    rewrite (iter_new_path cf (w_st w) F i l Hp) in H.
    apply bind_lift_inv in H as [(it & E & H)|[(e & E & _)|(k & E & _)]]; try discriminate. injection E as <-.
    pose proof (remaining_new cf (w_st w) F i l Hp) as R.
    pose proof (path_fuel cf Hcf (w_st w) F i l Hp) as FU.
    assert (FU2 : length l < fuel cf).
    { pose proof (path_bound _ _ _ Hp) as B. rewrite (fo_size _ _ F) in B. destruct Hcf as (_ & _ & Hfu). lia. }
    apply bind_inv in H as [([info dice] & w3 & H1 & H)|[(e & H1 & ->)|(k & H1 & ->)]];
      pose proof (hash_nodes_keeps cf C P co _ _ _ _ _ _ _ _ H1) as [K1 _];
      apply (hash_nodes_spec (w_st w) F _ l cts) in H1 as (Gp & [[E Ga]|(e' & E)]); auto;
      try discriminate.
    2:{ injection E as ->. right; left; eauto. }
    injection E as -> ->. cbn [orb] in H. cbn [w_c w_st w_p w_out] in *.
    (* internal info *)
    assert (INFO : (exists i pi w4,
        ((forall c, In c cts -> c_info c = false) /\ i = [] /\ pi = w_p w \/
         (exists c, In c cts /\ c_info c = true) /\
         exists vid sku p1, po_vendor_id po (w_p w) = (inl vid, p1) /\ po_vendor_sku po p1 = (inl sku, pi) /\
           i = [info_input cf (st_support (w_st w)) vid sku]) /\
        absorbs co (w_c w3) i (w_c w4) /\ w_p w4 = pi /\
        bind (if existsb c_dice cts
              then hash_cert_chain C P co po (fuel cf) 0 (repeat 0%N (N.to_nat max_chunk_size))
              else ret tt) (fun _ => crypto (co_hash_finish co)) w4 = (x, w')) \/
       (exists e, x = Err (CryptoErr e)) \/
       ((exists c, In c cts /\ c_info c = true) /\ exists e, x = Err (PlatformErr e))).
    { destruct (existsb_flag c_info cts) as [[Ei Hi]|[Ei Hi]]; rewrite Ei in H.
      - apply bind_inv in H as [(u & w4 & H1 & H)|[(e & H1 & ->)|(k & H1 & ->)]];
          (apply bind_inv in H1 as [(b & w5 & H2 & H1)|[(e2 & H2 & E2)|(k2 & H2 & E2)]]);
          apply internal_info_spec in H2 as (Kc & [(vid & sku & p1 & E & V1 & V2)|(e' & E)]); try discriminate.
        + injection E as ->. apply crypto_inv in H1 as (c5 & Ew & [(a & Ea & Hf)|(e' & Ee & Hf)]); try discriminate.
          destruct a. left. subst w4. exists [info_input cf (st_support (w_st w)) vid sku], (w_p w5).
          eexists. split; [|split; [|split; [|exact H]]].
          * right. split; [exact Hi|]. exists vid, sku, p1. rewrite <- Gp. auto.
          * cbn [w_c]. rewrite <- Kc. econstructor; [exact Hf|constructor].
          * reflexivity.
        + apply crypto_inv in H1 as (c5 & Ew & [(a & Ea & Hf)|(e' & Ee & Hf)]); try discriminate.
          right; left. injection Ee as ->; eauto.
        + right; right. split; [exact Hi|]. injection E as ->. injection E2 as ->. eauto.
        + apply crypto_inv in H1 as (c5 & Ew & [(a & Ea & Hf)|(e' & Ee & Hf)]); discriminate.
      - apply bind_inv in H as [(u & w4 & H1 & H)|[(e & H1 & ->)|(k & H1 & ->)]]; try discriminate.
        apply ret_inv in H1 as [_ ->]. left. exists [], (w_p w), w3.
        split; [left; auto|]. split; [constructor|]. split; [exact Gp|]. exact H. }
    clear H. destruct INFO as [(i0 & pi & w4 & Hi & Ha & Epi & H)|[H|H]]; [|auto|auto].
    destruct (existsb_flag c_dice cts) as [[Ed Hd]|[Ed Hd]]; rewrite Ed in H.
    - apply bind_inv in H as [(u & w5 & H1 & H)|[(e & H1 & ->)|(k & H1 & ->)]];
        apply hash_cert_chain_spec in H1 as [(E & chunks & Hr & Hc)|[(e' & E)|[E|(k' & E & Hns)]]]; try discriminate.
      + apply crypto_inv in H as (c6 & Ew & [(a & Ea & Hf)|(e' & Ee & Hf)]); subst; [|right; left; eauto].
        left. exists a, c0, c1, (w_c w5), i0, chunks. split; [reflexivity|]. split; [exact Hf0|]. split; [exact Hf1|].
        split.
        * exists (w_p w4). split; [exact Hi|]. right. split; [exact Hd|].
          exact Hr.
        * split; [|exact Hf]. eapply absorbs_app; [exact Ga|]. eapply absorbs_app; eauto.
      + injection E as ->. right; left; eauto.
      + injection E as ->. do 3 right; left. auto.
      + do 4 right. split; [exact Hd|]. exists k', (w_p w4). injection E as ->. split; [reflexivity|]. exact Hns.
    - apply bind_inv in H as [(u & w5 & H1 & H)|[(e & H1 & ->)|(k & H1 & ->)]]; try discriminate.
      apply ret_inv in H1 as [_ ->].
      apply crypto_inv in H as (c6 & Ew & [(a & Ea & Hf)|(e' & Ee & Hf)]); subst; [|right; left; eauto].
      left. exists a, c0, c1, (w_c w4), i0, []. split; [reflexivity|]. split; [exact Hf0|]. split; [exact Hf1|].
      split.
      + exists (w_p w4). split; [exact Hi|]. left. auto.
      + split; [|exact Hf]. rewrite app_nil_r. eapply absorbs_app; [exact Ga|exact Ha].
  Qed.
End Measure.

(** ** Injectivity *)

Lemma node_length cf s c : slot_ok cf s c ->
  length (concat (node_input c)) = 13 + 2 * tci_size cf.
Proof.
  intros K. cbn [node_input concat]. rewrite !app_length, !length_le_bytes.
  destruct (so_cumulative _ _ _ K) as [-> _], (so_current _ _ _ K) as [-> _]. cbn [length]. lia.
Qed.

(** The measured content of a context: all of its record and its permission. *)
Definition same_measured (a b : context) : Prop :=
  c_tci a = c_tci b /\ c_x509 a = c_x509 b.

Lemma node_inj cf s s' a b : slot_ok cf s a -> slot_ok cf s' b ->
  concat (node_input a) = concat (node_input b) -> same_measured a b.
Proof.
  intros A B H. cbn [node_input concat] in H. rewrite !app_nil_r in H. rewrite <- !app_assoc in H.
  destruct (so_cumulative _ _ _ A) as [A1 _], (so_current _ _ _ A) as [A2 _],
    (so_cumulative _ _ _ B) as [B1 _], (so_current _ _ _ B) as [B2 _].
  assert (SP : forall (x y u v : bytes), length x = length y -> x ++ u = y ++ v -> x = y /\ u = v).
  { intros x; induction x as [|p x IH]; intros [|q y] u v L E; try discriminate; [auto|].
    cbn in L, E. injection E as -> E. destruct (IH y u v) as [-> ->]; auto. }
  apply SP in H as [E1 H]; [|rewrite !length_le_bytes; reflexivity].
  apply SP in H as [E2 H]; [|congruence].
  apply SP in H as [E3 H]; [|congruence].
  apply SP in H as [E4 H]; [|rewrite !length_le_bytes; reflexivity].
  apply SP in H as [E5 H]; [|rewrite !length_le_bytes; reflexivity].
  apply le_bytes_inj in E1; [|apply A|apply B].
  pose proof (so_tci_locality _ _ _ A) as TA. pose proof (so_tci_locality _ _ _ B) as TB.
  apply le_bytes_inj in E4; [|rewrite TA; apply A|rewrite TB; apply B].
  apply le_bytes_inj in E5; [|apply A|apply B].
  unfold same_measured. destruct (c_tci a), (c_tci b); cbn in *. split; [congruence|].
  destruct (c_x509 a), (c_x509 b); try reflexivity; discriminate.
Qed.

Lemma nodes_inj cf s s' : forall l l' (t t' : bytes),
  (forall c, In c l -> slot_ok cf s c) -> (forall c, In c l' -> slot_ok cf s' c) ->
  length l = length l' ->
  concat (flat_map node_input l) ++ t = concat (flat_map node_input l') ++ t' ->
  Forall2 same_measured l l' /\ t = t'.
Proof.
  induction l as [|a l IH]; intros [|b l'] t t' A B L H; try discriminate.
  - split; [constructor|exact H].
  - cbn [flat_map] in H. rewrite !concat_app, <- !app_assoc in H.
    assert (SP : forall (x y u v : bytes), length x = length y -> x ++ u = y ++ v -> x = y /\ u = v).
    { intros x; induction x as [|p x IHx]; intros [|q y] u v L' E; try discriminate; [auto|].
      cbn in L', E. injection E as -> E. destruct (IHx y u v) as [-> ->]; auto. }
    apply SP in H as [E H].
    + destruct (IH l' t t') as [F ->]; auto.
      * intros c Hc; apply A; right; exact Hc.
      * intros c Hc; apply B; right; exact Hc.
      * split; [|reflexivity]. constructor; [|exact F].
        eapply node_inj; [apply A; left; reflexivity|apply B; left; reflexivity|exact E].
    + rewrite (node_length cf s) by (apply A; left; reflexivity).
      rewrite (node_length cf s') by (apply B; left; reflexivity). reflexivity.
Qed.

Lemma nodes_length cf s l : (forall c, In c l -> slot_ok cf s c) ->
  length (concat (flat_map node_input l)) = length l * (13 + 2 * tci_size cf).
Proof.
  induction l as [|a l IH]; intros A; [reflexivity|].
  cbn [flat_map length]. rewrite concat_app, app_length, (node_length cf s) by (apply A; left; reflexivity).
  rewrite IH by (intros c Hc; apply A; right; exact Hc). lia.
Qed.

Lemma info_length cf sup vid sku : length (info_input cf sup vid sku) = 36.
Proof. unfold info_input. rewrite !app_length, !length_le_bytes. reflexivity. Qed.

Lemma tci_size_cases cf : tci_size cf = 32 \/ tci_size cf = 48.
Proof. unfold tci_size. destruct (_ || _)%bool; auto. Qed.

Lemma lineage_slots cf s i cts : wf cf s -> lineage s i cts -> forall c, In c cts -> slot_ok cf s c.
Proof.
  intros W (l & _ & Fa) c Hc. induction Fa as [|a b l' cs Hab Fa IH]; [destruct Hc|].
  destruct Hc as [<-|Hc]; [apply (wf_slot _ _ W _ _ Hab)|auto].
Qed.

Lemma extra_length {P} cf (po : platform_ops P) s cts p i d p' : extra_input cf po s cts p i d p' ->
  (i = [] /\ forall c, In c cts -> c_info c = false) \/
  (length (concat i) = 36 /\ (exists b, i = [b]) /\ exists c, In c cts /\ c_info c = true).
Proof.
  intros (pi & [(H & -> & _)|(H & vid & sku & p1 & _ & _ & ->)] & _); [left; auto|right].
  cbn [concat]. rewrite app_nil_r, info_length. eauto.
Qed.

Theorem input_injective {P P'} cf (po : platform_ops P) (po' : platform_ops P') s s' x x' cts cts'
    p i d q p' i' d' q' :
  wf cf s -> wf cf s' -> lineage s x cts -> lineage s' x' cts' ->
  extra_input cf po s cts p i d q -> extra_input cf po' s' cts' p' i' d' q' ->
  concat (flat_map node_input cts ++ i ++ d) = concat (flat_map node_input cts' ++ i' ++ d') ->
  length (concat d) = length (concat d') ->
  Forall2 same_measured cts cts' /\ i = i' /\ concat d = concat d' /\
  ((exists c, In c cts /\ c_info c = true) <-> (exists c, In c cts' /\ c_info c = true)).
Proof.
  intros W W' L L' X X' E El.
  pose proof (lineage_slots cf s x cts W L) as A. pose proof (lineage_slots cf s' x' cts' W' L') as A'.
  rewrite !concat_app in E.
  pose proof (f_equal (@length N) E) as EL. rewrite !app_length in EL.
  rewrite (nodes_length cf s cts A), (nodes_length cf s' cts' A') in EL.
  pose proof (extra_length cf po _ _ _ _ _ _ X) as XL.
  pose proof (extra_length cf po' _ _ _ _ _ _ X') as XL'.
  assert (NL : length cts = length cts' /\ length (concat i) = length (concat i')).
  { unfold bytes in *. destruct XL as [[-> _]|[LI _]], XL' as [[-> _]|[LI' _]]; try rewrite LI in *; try rewrite LI' in *;
      cbn [concat length] in *;
      destruct (tci_size_cases cf) as [Et|Et]; rewrite Et in EL;
      rewrite El in EL; revert EL; generalize (length cts), (length cts'), (length (concat d'));
      clear; intros n n0 n1 EL; destruct (Nat.lt_trichotomy n n0) as [?|[?|?]]; lia. }
  destruct NL as [NL IL].
  destruct (nodes_inj cf s s' cts cts' _ _ A A' NL E) as [FA ET].
  assert (SP : forall (x y u v : bytes), length x = length y -> x ++ u = y ++ v -> x = y /\ u = v).
  { intros a; induction a as [|p0 a IHx]; intros [|q0 y] u v L0 E0; try discriminate; [auto|].
    cbn in L0, E0. injection E0 as -> E0. destruct (IHx y u v) as [-> ->]; auto. }
  apply SP in ET as [Ei Ed]; [|exact IL].
  split; [exact FA|].
  destruct XL as [[-> N]|(Li & (b & ->) & N)], XL' as [[-> N']|(Li' & (b' & ->) & N')]; cbn [concat length] in *; try lia.
  - split; [reflexivity|]. split; [exact Ed|]. split; intros (c & Hc & Hi); [rewrite (N c Hc) in Hi|rewrite (N' c Hc) in Hi]; discriminate.
  - rewrite !app_nil_r in Ei. subst b'. split; [reflexivity|]. split; [exact Ed|]. tauto.
Qed.
