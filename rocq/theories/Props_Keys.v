(** Props_Keys.v -- the key of a context (C16), and what a signed request proves about
    it (C44). *)
From Verif Require Import Base Errors Types StateOps Env Wire Instance Commands X509 X509Cert Lib Der DerProofs X509Run X509Spec X509Enc
  Spec Exec Effects Forest History WireSpec Codec Steps Reach Toy Contract Responses Execute Walk Measure X509Out X509Proper X509Gen X509Read X509ReadOk
  X509Made X509Total X509Sane X509Cmd X509Odd X509Any X509Facts KeyProofs ToyX509 Ledger Props_Commands Props_Measure Props_X509.
Open Scope N_scope.
Open Scope dpe_scope.

(** ** C16: one key for each context and label *)

(** The key of a chain of contexts: derived from the digest of its measurements and
    the label "DPE", with the label of the command and the context "ECC" or "MLDSA". *)
Definition context_key (cf : config) (Hf : bytes -> digest) (pub : digest -> bytes -> bytes -> bytes -> pubkey)
    (support vid sku : N) (chain : bytes) (cts : list context) (label : bytes) : pubkey :=
  pub (Hf (measured_bytes cf support vid sku chain cts)) [68; 80; 69] label
      (match prof cf with Mldsa87 => [77; 76; 68; 83; 65] | _ => [69; 67; 67] end).
(** Label and message of the commands that use a key. *)
Definition certifies (cmd : command) (label : bytes) : Prop :=
  match cmd with
  | CmdCertifyKey (CertifyP256 c) | CmdCertifyKey (CertifyP384 c) | CmdCertifyKey (CertifyMldsa87 c) => label = ck_label c
  | _ => False
  end.
Definition signs (cmd : command) (label : bytes) (data : sign_data) : Prop :=
  match cmd with
  | CmdSign (SignP256 c) => label = sg_label c /\ data = SDDigest (DSha256 (sg_digest c))
  | CmdSign (SignP384 c) => label = sg_label c /\ data = SDDigest (DSha384 (sg_digest c))
  | CmdSign (SignMldsa87 c) => label = sg_label c /\ data = SDMu (sg_digest c)
  | CmdSign (SignMldsa87Raw c) => label = sr_label c /\ data = SDRaw (firstn (N.to_nat (sr_size c)) (sr_raw c))
  | _ => False
  end.
(** A signature in a response: the two halves, or the ML-DSA signature and a padding
    byte. *)
Definition signature_field (g : signature) : bytes :=
  match g with
  | SigEcdsa256 r s => to_buf 32 r ++ to_buf 32 s
  | SigEcdsa384 r s => to_buf 48 r ++ to_buf 48 s
  | SigMldsa b => to_buf (N.to_nat 4627) b ++ [0]
  end.

(** The key in the response of CertifyKey is the key of the addressed context. *)
Theorem C16_certify_key :
  forall cf C P (co : crypto_ops C) (po : platform_ops P) Hf pub ver vid sku chain cmd label loc w n w' h i cts,
    config_ok cf -> faithful co Hf pub ver -> steady po vid sku chain -> wf cf (w_st w) ->
    exec_command cf C P co po (x509_gen cf C P co po) cmd loc w = (Ok n, w') -> certifies cmd label ->
    presents cmd h -> first_slot (names (w_st w) h loc) i -> lineage (w_st w) i cts ->
    slice (w_out w') 28 (output_start cmd - 32)
    = key_octets (prof cf) (context_key cf Hf pub (st_support (w_st w)) vid sku chain cts label).
Proof.
  intros cf C P co po Hf pub ver vid sku chain cmd label loc w n w' h i cts Hcf Fb Sp W H HC HP HF HL.
  destruct cmd as [|f|d|cmd|sg|hh f|hh|o sz|u]; try destruct HC.
  apply (certify_created cf co po) in H as (cr & w1 & pk & Hc & _ & _ & Hpk & _ & Hk); [|assumption..]. rewrite <- start_certify in *.
  assert (E : label = ck_label (certify_inner cmd)) by (destruct cmd; exact HC).
  assert (Eh : h = ck_handle (certify_inner cmd)) by (destruct cmd; exact HP). subst h.
  eapply (created_key cf co po) in Hc as (d & w2 & Hd & Q); [|exact HF].
  assert (EX : kind_exported (if ck_format (certify_inner cmd) =? 0 then KindX509 else KindCsr) = false) by (destruct (ck_format (certify_inner cmd) =? 0); reflexivity).
  rewrite EX in Q. destruct Q as (c' & Q). apply (pub_is co Hf pub ver Fb) in Q. cbn [ca_cdi_label ca_key_label ca_context certify_args] in Q.
  pose proof (digest_is cf Hcf co po Hf pub ver vid sku chain Fb Sp i cts w d w2 W HL Hd) as ED.
  assert (EK : cr_pubkey cr = context_key cf Hf pub (st_support (w_st w)) vid sku chain cts label).
  { rewrite Q, ED, E. unfold context_key, key_context, str_DPE. destruct (prof cf); reflexivity. }
  rewrite <- EK, Hk. destruct cmd; cbn [certify_profile pubkey_bytes] in Hpk; destruct (cr_pubkey cr); try discriminate; cbn [key_octets]; congruence.
Qed.
Print Assumptions C16_certify_key.

(** The signature in the response of Sign verifies under the key of the addressed
    context, for the message of the command. *)
Theorem C16_sign :
  forall cf C P (co : crypto_ops C) (po : platform_ops P) cg Hf pub ver vid sku chain cmd label data loc w n w' h i cts,
    config_ok cf -> faithful co Hf pub ver -> steady po vid sku chain -> wf cf (w_st w) ->
    exec_command cf C P co po cg cmd loc w = (Ok n, w') -> signs cmd label data ->
    presents cmd h -> first_slot (names (w_st w) h loc) i -> lineage (w_st w) i cts ->
    exists g, ver (context_key cf Hf pub (st_support (w_st w)) vid sku chain cts label) data g /\
      slice (w_out w') 28 (N.to_nat n - 28) = signature_field g /\ N.to_nat n = (28 + length (signature_field g))%nat.
Proof.
  intros cf C P co po cg Hf pub ver vid sku chain cmd label data loc w n w' h i cts Hcf Fb Sp W H HC HP HF HL.
  destruct cmd as [|f|d|cmd|sg|hh f|hh|o sz|u]; try destruct HC. cbn [exec_command] in H.
  apply exec_sign_inv in H as [[_ N]|(s' & bs & (h' & label' & data' & idx & ctx & g & sb & nh & w1 & Hi & Hf' & Hx & _ & Hs & Hb & Hr & ->) & Hfin)];
    [exfalso; eapply N; reflexivity|].
  assert (E : h' = h /\ label' = label /\ data' = data).
  { destruct sg; cbn [sign_inputs presents signs] in *.
    1-3: destruct HC; injection Hi as <- <- <-; split; [|split]; congruence.
    destruct (N.leb (sr_size c) _); [|discriminate]. destruct HC; injection Hi as <- <- <-; split; [|split]; congruence. }
  destruct E as (-> & -> & ->). rewrite (first_slot_det _ _ _ Hf' HF) in *.
  apply (do_sign_is cf Hcf co po Hf pub ver vid sku chain Fb Sp i cts) in Hs; [|assumption..].
  exists g. split. { unfold context_key. destruct (prof cf); exact Hs. }
  assert (Lh : length nh = 16%nat).
  { destruct Hr as (i' & c0 & c' & _ & Hc & R & _ & ->).
    pose proof (so_handle _ _ _ (wf_slot _ _ W i' c0 Hc)) as [B _].
    destruct R as [[_ ->]|(_ & x & (_ & L & _) & ->)]; [exact B|exact L]. }
  assert (ES : sb = signature_field g).
  { destruct g; cbn [signature_bytes] in Hb; [destruct (feat_p256 cf)|destruct (feat_p384 cf)|destruct (feat_mldsa cf)]; try discriminate;
      apply (f_equal (fun o => match o with Some x => x | None => [] end)) in Hb; symmetry; exact Hb. }
  rewrite <- ES. destruct Hfin as [_ [(Hl & Hn & Ho)|(_ & X & _)]]; [|discriminate]. apply ok_inj in Hn.
  assert (LB : length (sign_resp_bytes cf nh sb) = (28 + length sb)%nat) by (unfold sign_resp_bytes; rewrite !app_length, length_ok_hdr, Lh; lia).
  rewrite Hn, Nat2N.id, LB. split; [|reflexivity].
  replace (28 + length sb - 28)%nat with (length sb) by lia. rewrite Ho, slice_overwrite by (rewrite LB; lia).
  unfold sign_resp_bytes. rewrite app_assoc. unfold slice. rewrite skipn_app, skipn_all2, app_nil_l by (rewrite app_length, length_ok_hdr, Lh; lia).
  rewrite app_length, length_ok_hdr, Lh. cbn [Nat.add Nat.sub skipn]. apply firstn_all.
Qed.
Print Assumptions C16_sign.

(** A command by anyone, with any result, leaves every context in use with the
    measurements of its whole chain, unless it removes this context, or extends the
    measurements of a context on its chain.  Creating, certifying, signing, rotating
    and reading never have such an effect. *)
Theorem C16_kept :
  forall cf e cmd loc s r s' i cts,
    config_ok cf -> wf cf s -> executes cf e cmd loc s r s' -> lineage s i cts ->
    (exists cts', lineage s' i cts' /\ Forall2 measured_alike cts cts') \/
    (removes cmd /\ ~ live_at s' i) \/
    (remeasures cmd /\ exists a c c' m, below s a i /\ at_slot s a c /\ at_slot s' a c' /\
       extended cf (e_crypto e) m c c' /\ c_tci c' <> c_tci c).
Proof.
  intros cf e cmd loc s r s' i cts Hcf W (c & p & out & c' & p' & out' & H) HL.
  exact (command_chain cf Hcf _ _ _ _ _ _ _ (mkWorld s c p out) _ _ i cts W H HL).
Qed.
Print Assumptions C16_kept.

(** Any number of commands by anyone, during which the context in slot [i] stays and
    no context on its chain is measured again. *)
Inductive undisturbed (cf : config) (i : nat) : state -> state -> Prop :=
| ud_start s : undisturbed cf i s s
| ud_command s s1 e cmd loc r s2 :
    undisturbed cf i s s1 -> command_wf cf cmd -> u32 loc -> executes cf e cmd loc s1 r s2 ->
    (removes cmd -> live_at s2 i) ->
    (remeasures cmd -> forall a c c', below s1 a i -> at_slot s1 a c -> at_slot s2 a c' -> c_tci c' = c_tci c) ->
    undisturbed cf i s s2.

Lemma undisturbed_keeps cf i s s' : config_ok cf -> reachable cf s -> undisturbed cf i s s' -> forall cts, lineage s i cts ->
  reachable cf s' /\ st_support s' = st_support s /\ exists cts', lineage s' i cts' /\ Forall2 measured_alike cts cts'.
Proof.
  intros Hcf R H. induction H as [s|s s1 e cmd loc r s2 H IH Wc Wl X Q1 Q2]; intros cts HL.
  - split; [exact R|]. split; [reflexivity|]. exists cts. split; [exact HL|apply Forall2_alike_refl].
  - destruct (IH R cts HL) as ((l & R1) & S1 & cts1 & L1 & M1).
    assert (W1 : wf cf s1) by (apply (reachable_wf cf Hcf); exists l; exact R1).
    split; [exists (EvCommand cmd loc r :: l); eapply hi_command; eauto; exact I|].
    split; [rewrite <- S1; eapply C34_mask_kept; eauto|].
    destruct (C16_kept cf e cmd loc s1 r s2 i cts1 Hcf W1 X L1) as [(cts2 & L2 & M2)|[(A & B)|(A & a & c & c' & m & B1 & B2 & B3 & _ & B5)]].
    + exists cts2. split; [exact L2|eapply Forall2_alike_trans; eauto].
    + destruct (B (Q1 A)).
    + destruct B5. exact (Q2 A a c c' B1 B2 B3).
Qed.

(** So the key certified for a context and a label verifies everything signed later
    (or earlier) with this context and this label, whatever happened in between to
    handles, to other contexts, and to the buffer. *)
Theorem C16_same_key :
  forall cf C P C' P' (co : crypto_ops C) (po : platform_ops P) (co' : crypto_ops C') (po' : platform_ops P') cg
         Hf pub ver vid sku chain i label data cmd1 loc1 h1 w1 n1 w1' cmd2 loc2 h2 w2 n2 w2',
    config_ok cf -> faithful co Hf pub ver -> faithful co' Hf pub ver -> steady po vid sku chain -> steady po' vid sku chain ->
    reachable cf (w_st w1) -> reachable cf (w_st w2) ->
    undisturbed cf i (w_st w1) (w_st w2) \/ undisturbed cf i (w_st w2) (w_st w1) ->
    exec_command cf C P co po (x509_gen cf C P co po) cmd1 loc1 w1 = (Ok n1, w1') ->
    certifies cmd1 label -> presents cmd1 h1 -> first_slot (names (w_st w1) h1 loc1) i ->
    exec_command cf C' P' co' po' cg cmd2 loc2 w2 = (Ok n2, w2') ->
    signs cmd2 label data -> presents cmd2 h2 -> first_slot (names (w_st w2) h2 loc2) i ->
    exists pk g, slice (w_out w1') 28 (output_start cmd1 - 32) = key_octets (prof cf) pk /\
      slice (w_out w2') 28 (N.to_nat n2 - 28) = signature_field g /\ ver pk data g.
Proof.
  intros cf C P C' P' co po co' po' cg Hf pub ver vid sku chain i label data cmd1 loc1 h1 w1 n1 w1' cmd2 loc2 h2 w2 n2 w2'
    Hcf F1 F2 S1 S2 R1 R2 U H1 HC1 HP1 HF1 H2 HC2 HP2 HF2.
  pose proof (reachable_wf cf Hcf _ R1) as W1. pose proof (reachable_wf cf Hcf _ R2) as W2.
  assert (L : forall s loc h, wf cf s -> first_slot (names s h loc) i -> exists cts, lineage s i cts).
  { intros s loc h W [(c & A & Ac & _) _]. apply (lineage_ex cf s (wf_forest _ _ W)). exists c. split; [exact A|]. unfold live. congruence. }
  assert (K : exists cts1 cts2, lineage (w_st w1) i cts1 /\ lineage (w_st w2) i cts2 /\
     st_support (w_st w2) = st_support (w_st w1) /\ Forall2 measured_alike cts1 cts2).
  { destruct U as [U|U].
    - destruct (L _ _ _ W1 HF1) as (cts1 & L1). destruct (undisturbed_keeps _ _ _ _ Hcf R1 U _ L1) as (_ & S & cts2 & L2 & M). eauto 10.
    - destruct (L _ _ _ W2 HF2) as (cts2 & L2). destruct (undisturbed_keeps _ _ _ _ Hcf R2 U _ L2) as (_ & S & cts1 & L1 & M).
      exists cts1, cts2. split; [exact L1|]. split; [exact L2|]. split; [auto|].
      clear - M. induction M as [|a b x y (E1 & E2 & E3 & E4) M IH]; constructor; [repeat split; auto|exact IH]. }
  destruct K as (cts1 & cts2 & L1 & L2 & ES & M).
  pose proof (C16_certify_key cf C P co po Hf pub ver vid sku chain cmd1 label loc1 w1 n1 w1' h1 i cts1 Hcf F1 S1 W1 H1 HC1 HP1 HF1 L1) as E1.
  destruct (C16_sign cf C' P' co' po' cg Hf pub ver vid sku chain cmd2 label data loc2 w2 n2 w2' h2 i cts2 Hcf F2 S2 W2 H2 HC2 HP2 HF2 L2) as (g & V & E2 & _).
  eexists. exists g. split; [exact E1|]. split; [exact E2|]. unfold context_key in *. rewrite (measured_same _ _ _ _ _ _ _ M). rewrite <- ES. exact V.
Qed.
Print Assumptions C16_same_key.

(** Conversely two chains have the same key only if they carry the same measurements
    and permissions, or the hash or the key derivation collides.  (Both chains include
    the platform's certificate chain, or neither does; see C15_injective_refuted.) *)
Theorem C16_distinct :
  forall cf Hf pub vid sku chain s s' i i' cts cts' label label',
    config_ok cf -> wf cf s -> wf cf s' -> lineage s i cts -> lineage s' i' cts' ->
    ((exists c, In c cts /\ c_dice c = true) <-> (exists c, In c cts' /\ c_dice c = true)) ->
    context_key cf Hf pub (st_support s) vid sku chain cts label = context_key cf Hf pub (st_support s') vid sku chain cts' label' ->
    (Forall2 (fun a b => c_tci a = c_tci b /\ c_x509 a = c_x509 b) cts cts' /\ label = label') \/
    (exists a b, a <> b /\ Hf a = Hf b) \/
    (exists d l k x d' k', (d, k) <> (d', k') /\ pub d l k x = pub d' l k' x).
Proof.
  intros cf Hf pub vid sku chain s s' i i' cts cts' label label' _ W W' L L' D E. unfold context_key in E.
  set (x := match prof cf with Mldsa87 => [77; 76; 68; 83; 65] | _ => [69; 67; 67] end) in E.
  assert (DD : forall a b : digest, {a = b} + {a <> b}) by (decide equality; apply (list_eq_dec N.eq_dec)).
  destruct (DD (Hf (measured_bytes cf (st_support s) vid sku chain cts)) (Hf (measured_bytes cf (st_support s') vid sku chain cts'))) as [EH|NH].
  2:{ right; right. do 6 eexists. split; [|exact E]. intros X. apply NH. exact (f_equal fst X). }
  destruct (list_eq_dec N.eq_dec label label') as [EL|NL].
  2:{ right; right. do 6 eexists. split; [|exact E]. intros X. apply NL. exact (f_equal snd X). }
  destruct (list_eq_dec N.eq_dec (measured_bytes cf (st_support s) vid sku chain cts) (measured_bytes cf (st_support s') vid sku chain cts')) as [EB|NB];
    [|right; left; eauto].
  left. split; [|exact EL]. apply (measured_injective cf vid sku chain s s' i i' cts cts' W W' L L') in EB as [F _]; [exact F|].
  destruct (existsb_flag c_dice cts) as [[-> H]|[-> H]], (existsb_flag c_dice cts') as [[-> H']|[-> H']]; try reflexivity.
  - apply D in H as (c & Hc & Fc). rewrite (H' _ Hc) in Fc. discriminate.
  - apply D in H' as (c & Hc & Fc). rewrite (H _ Hc) in Fc. discriminate.
Qed.
Print Assumptions C16_distinct.

(** Non-vacuity: a root is certified, then a child is derived for another locality,
    the root's handle is rotated, and the root signs under its new handle. *)
Definition later : list (command * N) :=
  [(init_default, 5); (certify H0 0, 5); (derive_to H0 (2 ^ 29 + 2 ^ 27) 7 0, 5); (CmdRotateCtx H0 0, 5)].
Lemma x_undisturbed i s w cmd loc : undisturbed toy_cf i s (w_st w) -> command_wf toy_cf cmd -> u32 loc -> ~ removes cmd -> ~ remeasures cmd ->
  undisturbed toy_cf i s (w_st (snd (x_exec cmd loc w))).
Proof. intros H Wc Wl N1 N2. eapply ud_command; [exact H|exact Wc|exact Wl|apply x_executes|contradiction|contradiction]. Qed.
Example C16_case :
  let w1 := x_run [(init_default, 5)] in let w2 := x_run later in
  config_ok toy_cf /\ faithful xc toy_Hf toy_pub toy_ver /\ steady xp 1 2 toy_chain /\
  reachable toy_cf (w_st w1) /\ reachable toy_cf (w_st w2) /\ undisturbed toy_cf 0 (w_st w1) (w_st w2) /\
  x_exec (certify H0 0) 5 w1 = (Ok 704, snd (x_exec (certify H0 0) 5 w1)) /\ certifies (certify H0 0) (data 3) /\
  presents (certify H0 0) H0 /\ first_slot (names (w_st w1) H0 5) 0 /\
  x_exec (sign (Hn 2)) 5 w2 = (Ok 92, snd (x_exec (sign (Hn 2)) 5 w2)) /\ signs (sign (Hn 2)) (data 3) (SDDigest (DSha256 (data 4))) /\
  presents (sign (Hn 2)) (Hn 2) /\ first_slot (names (w_st w2) (Hn 2) 5) 0 /\
  H0 <> Hn 2.
Proof.
  intros w1 w2. split; [exact toy_cf_ok|]. split; [apply toy_faithful|]. split; [exact toy_steady|].
  split; [apply x_reachable; toy_wf|]. split; [apply x_reachable; toy_wf|]. split.
  { unfold w2, later. change [(init_default, 5); (certify H0 0, 5); (derive_to H0 (2 ^ 29 + 2 ^ 27) 7 0, 5); (CmdRotateCtx H0 0, 5)]
      with ((([(init_default, 5)] ++ [(certify H0 0, 5)]) ++ [(derive_to H0 (2 ^ 29 + 2 ^ 27) 7 0, 5)]) ++ [(CmdRotateCtx H0 0, 5)]).
    rewrite 3 x_run_app. apply x_undisturbed; [apply x_undisturbed; [apply x_undisturbed; [apply ud_start|..]|..]|..].
    all: try (vm_compute; intuition discriminate).
    all: vm_compute; repeat split; auto 20; repeat constructor. }
  split; [apply x_ok; vm_compute; reflexivity|]. split; [reflexivity|]. split; [reflexivity|].
  split; [split; [eexists; vm_compute; repeat split|intros j Hj; lia]|].
  split; [apply x_ok; vm_compute; reflexivity|]. split; [split; reflexivity|]. split; [reflexivity|].
  split; [split; [eexists; vm_compute; repeat split|intros j Hj; lia]|]. discriminate.
Qed.

(** ** C44: a signed request proves possession of the key it certifies *)

(** The request inside the message is signed over exactly its information part with
    the key it asks to certify -- the key of the addressed context, also reported in
    the response --, and the alias key's signature of the message covers exactly the
    request. *)
Theorem C44_possession :
  forall cf C P (co : crypto_ops C) (po : platform_ops P) Hf pub ver vid sku chain (alias : sign_data -> signature -> Prop)
         cmd label loc w n w' h i cts,
    config_ok cf -> keys_fit cf co -> signer_der po -> faithful co Hf pub ver -> steady po vid sku chain ->
    (forall m c g c', co_sign_with_alias co m c = (inl g, c') -> alias m g) ->
    wf cf (w_st w) -> command_wf cf cmd ->
    exec_command cf C P co po (x509_gen cf C P co po) cmd loc w = (Ok n, w') ->
    asks_request cmd -> certifies cmd label -> presents cmd h ->
    first_slot (names (w_st w) h loc) i -> lineage (w_st w) i cts -> even_svns cts ->
    let b := output cmd n (w_out w') in
    let pk := context_key cf Hf pub (st_support (w_st w)) vid sku chain cts label in
    exists csr info g1 g2 sid f,
      read_content b = Some csr /\
      decode csr = Some (Cons 0x30 [info; flat (alg_id (sig_alg_oid (prof cf))); flat (signature_bits g1)]) /\
      read_signer (prof cf) b = Some (sid, flat (signature_octets g2)) /\
      request_facts (prof cf) b = Some f /\ fa_key f = key_octets (prof cf) pk /\
      slice (w_out w') 28 (output_start cmd - 32) = key_octets (prof cf) pk /\
      ver pk (SDBuffer (enc info)) g1 /\ alias (SDBuffer csr) g2.
Proof.
  intros cf C P co po Hf pub ver vid sku chain alias cmd label loc w n w' h i cts Hcf HK HI Fb Sp Al W HC H HA HT HP HF HL HE b pk.
  pose proof (C16_certify_key cf C P co po Hf pub ver vid sku chain cmd label loc w n w' h i cts Hcf Fb Sp W H HT HP HF HL) as Key.
  destruct (C43_requests cf C P co po cmd loc w n w' h i cts Hcf HK HI W HC H HA HP HF HL HE) as (f & db & Ef & _ & Ek).
  destruct (request_command cf co po _ _ _ _ _ _ W HC H HA HP)
    as (a & cr & w1 & Hc & Hh & Hl & _ & _ & Hu & Lc & Lk & Lx & Hn & Hb & Hz & _).
  rewrite <- Hh, <- Hl in HF.
  destruct (request_read cf Hcf co po _ _ _ _ _ _ _ _ Hc eq_refl W Hu HK HI HF HL HE)
    as (E1 & (csr & info & d & g1 & g2 & c1 & c2 & m & E2 & E3 & E4 & E5 & E6 & (w2 & E7) & E8 & E9 & sid & E10 & _) & _).
  rewrite <- Hb in *. fold b in E4, E10, Ef.
  apply (sign_is co Hf pub ver Fb) in E8. rewrite Lc, Lx in E8.
  pose proof (digest_is cf Hcf co po Hf pub ver vid sku chain Fb Sp i cts w d w2 W HL E7) as ED. subst d.
  assert (EL : ca_key_label a = label).
  { destruct cmd as [|f0|d0|cmd|sg|hh f0|hh|o sz|u]; try destruct HT. destruct cmd; cbn [ueid_for certifies] in *; congruence. }
  rewrite EL in E8. exists csr, info, g1, g2, sid, f.
  split; [exact E4|]. split; [exact E5|]. split; [exact E10|]. split; [exact Ef|]. split; [rewrite Ek; exact Key|]. split; [exact Key|].
  split; [|eapply Al; exact E9]. unfold pk, context_key. unfold key_context, str_DPE in E8. destruct (prof cf); exact E8.
Qed.
Print Assumptions C44_possession.
(** Non-vacuity: besides what C29_case shows. *)
Example C44_case :
  faithful xc toy_Hf toy_pub toy_ver /\ steady xp 1 2 toy_chain /\ certifies (certify H0 1) (data 3) /\
  (forall m c g c', co_sign_with_alias xc m c = (inl g, c') -> g = SigEcdsa256 [1] [2]).
Proof.
  split; [apply toy_faithful|]. split; [exact toy_steady|]. split; [reflexivity|]. intros m c g c' H.
  apply (f_equal fst) in H. cbn [fst xc toy_crypto co_sign_with_alias] in H. congruence.
Qed.

(** Whatever the SVNs on the chain, even those with which the attributes of the request
    cannot be read (C29): the request in the message consists of an information part with
    the key of the addressed context, the profile's algorithm, and a signature over
    exactly this part which verifies under this key.  The alias key's signature of the message
    covers exactly the request.  Only the attributes ([attrs]) are not described. *)
Theorem C44_possession_any :
  forall cf C P (co : crypto_ops C) (po : platform_ops P) Hf pub ver vid sku chain (alias : sign_data -> signature -> Prop)
         cmd label loc w n w' h i cts,
    config_ok cf -> keys_fit cf co -> signer_der po -> faithful co Hf pub ver -> steady po vid sku chain ->
    (forall m c g c', co_sign_with_alias co m c = (inl g, c') -> alias m g) ->
    wf cf (w_st w) -> command_wf cf cmd ->
    exec_command cf C P co po (x509_gen cf C P co po) cmd loc w = (Ok n, w') ->
    asks_request cmd -> certifies cmd label -> presents cmd h ->
    first_slot (names (w_st w) h loc) i -> lineage (w_st w) i cts ->
    let b := output cmd n (w_out w') in
    let pk := context_key cf Hf pub (st_support (w_st w)) vid sku chain cts label in
    exists csr name attrs g1 g2 sid,
      let info := SEQUENCE [INTEGER 0; name; subject_public_key_info pk; Opaque attrs] in
      read_content b = Some csr /\ proper name /\
      csr = enc (SEQUENCE [info; alg_id (sig_alg_oid (prof cf)); signature_bits g1]) /\
      read_signer (prof cf) b = Some (sid, flat (signature_octets g2)) /\
      slice (w_out w') 28 (output_start cmd - 32) = key_octets (prof cf) pk /\
      ver pk (SDBuffer (enc info)) g1 /\ alias (SDBuffer csr) g2.
Proof.
  intros cf C P co po Hf pub ver vid sku chain alias cmd label loc w n w' h i cts Hcf HK HI Fb Sp Al W HC H HA HT HP HF HL b pk.
  pose proof (C16_certify_key cf C P co po Hf pub ver vid sku chain cmd label loc w n w' h i cts Hcf Fb Sp W H HT HP HF HL) as Key.
  destruct (request_command cf co po _ _ _ _ _ _ W HC H HA HP)
    as (a & cr & w1 & Hc & Hh & Hl & _ & _ & Hu & Lc & Lk & Lx & Hn & Hb & Hz & _).
  rewrite <- Hh, <- Hl in HF.
  destruct (request_any cf Hcf co po _ _ _ _ _ _ _ _ Hc eq_refl W Hu HK HI HF HL)
    as (name & attrs & d & g1 & g2 & c1 & c2 & sid & E1 & E2 & E3 & (w2 & E7) & E8 & E9 & E10 & _).
  rewrite <- Hb in *. fold b in E3, E10.
  destruct (created_key cf co po _ _ _ _ _ _ _ Hc HF) as (d' & w3 & D1 & c' & D2).
  rewrite E7 in D1. injection D1 as <- <-.
  assert (EL : ca_key_label a = label).
  { destruct cmd as [|f0|d0|cmd|sg|hh f0|hh|o sz|u]; try destruct HT. destruct cmd; cbn [ueid_for certifies] in *; congruence. }
  pose proof (digest_is cf Hcf co po Hf pub ver vid sku chain Fb Sp i cts w d w2 W HL E7) as ED. subst d.
  apply (pub_is co Hf pub ver Fb) in D2. apply (sign_is co Hf pub ver Fb) in E8. rewrite Lc, Lx, EL in E8, D2.
  assert (EP : cr_pubkey cr = pk) by (rewrite D2; unfold pk, context_key, key_context, str_DPE; destruct (prof cf); reflexivity).
  rewrite <- D2, EP in E8. rewrite EP in *.
  exists (enc (signed (prof cf) (SEQUENCE [INTEGER 0; name; subject_public_key_info pk; Opaque attrs]) g1)), name, attrs, g1, g2, sid.
  cbv zeta. split; [exact E3|]. split; [exact E2|]. split; [reflexivity|]. split; [exact E10|]. split; [exact Key|].
  split; [exact E8|]. eapply Al; exact E9.
Qed.
Print Assumptions C44_possession_any.
(** Non-vacuity: besides C44_case and C31_exact_case (SVNs of lengths 2 and 1), the
    request is made. *)
Example C44_any_case :
  let w := x_run (child_with 200) in
  exists n, x_exec (certify H0 1) 0 w = (Ok n, snd (x_exec (certify H0 1) 0 w)) /\ asks_request (certify H0 1) /\
    request_facts P256Sha256 (output (certify H0 1) n (w_out (snd (x_exec (certify H0 1) 0 w)))) = None.
Proof.
  eexists. split; [apply x_ok_exec; vm_compute; reflexivity|]. split; [discriminate|]. vm_compute. reflexivity.
Qed.
