(** X509Out.v -- the outputs of the certificate writer as DER encodings of the
    values of X509Spec.v, for the measurement chain of a context. *)
From Verif Require Import Base Errors Types StateOps Env Lib Spec Forest Walk Measure Der DerProofs
  X509 X509Run X509Spec X509Bytes X509Enc X509Tbs X509Cms.
Open Scope N_scope.

(** ** The code's lengths are DER lengths below 2^32 *)

Lemma E_enc t : len (E t) < 2 ^ 32 -> E t = enc t.
Proof.
  unfold enc.
  assert (KIDS : forall ks, Forall (fun t => len (E t) < 2 ^ 32 -> E t = enc_with der_len t) ks ->
            len (concat (map E ks)) < 2 ^ 32 -> map E ks = map (enc_with der_len) ks).
  { induction ks as [|k ks IH]; intros HF HL; [reflexivity|]. inversion HF; subst. cbn [map concat] in *.
    rewrite len_app in HL. f_equal; [apply H1; lia|apply IH; [assumption|lia]]. }
  induction t as [tag c|tag ks IH|tag pre ks IH|b] using der_ind'; cbn [enc_with]; intros H.
  - rewrite len_tlv, gss_unfold in H. unfold tlv. fold (len c). rewrite code_len_der by lia. reflexivity.
  - rewrite len_tlv, gss_unfold in H. rewrite <- KIDS by (auto; lia). unfold tlv.
    fold (len (concat (map E ks))). rewrite code_len_der by lia. reflexivity.
  - rewrite len_tlv, gss_unfold, len_app in H. rewrite <- KIDS by (auto; lia). unfold tlv.
    match goal with |- context [N.of_nat (length ?x)] => fold (len x) end.
    rewrite code_len_der by (rewrite len_app; lia). reflexivity.
  - reflexivity.
Qed.

Lemma enc_E t : len (enc t) < 2 ^ 32 -> E t = enc t.
Proof.
  unfold enc. set (F := enc_with der_len).
  assert (LT : forall tag c, len (tlv der_len tag c) < 2 ^ 32 -> len c < 2 ^ 32).
  { intros tag c. unfold tlv. rewrite len_cons, len_app. lia. }
  assert (KIDS : forall ks, Forall (fun t => len (F t) < 2 ^ 32 -> E t = F t) ks ->
            len (concat (map F ks)) < 2 ^ 32 -> map E ks = map F ks).
  { induction ks as [|k ks IH]; intros HF HL; [reflexivity|]. inversion HF; subst. cbn [map concat] in *.
    rewrite len_app in HL. f_equal; [apply H1; lia|apply IH; [assumption|lia]]. }
  induction t as [tag c|tag ks IH|tag pre ks IH|b] using der_ind'; unfold F; cbn [enc_with]; fold F; intros H.
  - apply LT in H. unfold tlv. fold (len c). rewrite code_len_der by exact H. reflexivity.
  - apply LT in H. rewrite KIDS by auto. unfold tlv. fold (len (concat (map F ks))). rewrite code_len_der by exact H. reflexivity.
  - apply LT in H. rewrite KIDS by (auto; rewrite len_app in H; lia). unfold tlv.
    match goal with |- context [N.of_nat (length ?x)] => fold (len x) end.
    rewrite code_len_der by exact H. reflexivity.
  - reflexivity.
Qed.

Lemma width3 n : get_size_width n = 3 <-> 256 <= n < 65536.
Proof.
  unfold get_size_width.
  destruct (N.ltb_spec n 128), (N.ltb_spec n 256), (N.ltb_spec n 65536), (N.ltb_spec n 16777216); lia.
Qed.

(** ** The measurement chain *)

(** The encodings of the SVNs of a chain, given leaf first, are as long altogether as
    if each were as long as the root's. *)
Definition svn_len (c : context) : nat := length (der_uint (tci_svn (c_tci c))).
Definition even_svns (cts : list context) : Prop :=
  forall l root, cts = l ++ [root] -> list_sum (map svn_len cts) = (length cts * svn_len root)%nat.
(** In particular if they all have one length. *)
Lemma even_dec cts : {even_svns cts} + {~ even_svns cts}.
Proof.
  destruct cts as [|c0 cts0]; [left; intros l root E; destruct l; discriminate|].
  destruct (exists_last (l := c0 :: cts0)) as (cts & c & Ec); [discriminate|]. rewrite Ec.
  destruct (Nat.eq_dec (list_sum (map svn_len (cts ++ [c]))) (length (cts ++ [c]) * svn_len c)) as [E|E].
  - left. intros l root El. apply app_inj_tail in El as [_ <-]. exact E.
  - right. intros H. apply E. exact (H cts c eq_refl).
Qed.
Lemma uniform_even cts : (forall a b, In a cts -> In b cts -> svn_len a = svn_len b) -> even_svns cts.
Proof.
  intros H l root El. assert (HR : In root cts) by (rewrite El; apply in_or_app; right; left; reflexivity).
  assert (G : forall k, incl k cts -> list_sum (map svn_len k) = (length k * svn_len root)%nat).
  { induction k as [|c k IH]; intros HI; [reflexivity|]. cbn [map list_sum fold_right length]. fold (list_sum (map svn_len k)).
    rewrite IH by (intros x Hx; apply HI; right; exact Hx). rewrite (H c root) by (auto; apply HI; left; reflexivity). lia. }
  apply G, incl_refl.
Qed.

Lemma lineage_bound cf s i cts : wf cf s -> lineage s i cts -> (1 <= length cts <= max_handles cf)%nat.
Proof.
  intros W (l & Hp & HF). assert (L : length l = length cts) by (clear Hp; induction HF; cbn [length]; congruence). rewrite <- L.
  rewrite <- (fo_size _ _ (wf_forest _ _ W)). split; [|exact (path_bound _ _ _ Hp)].
  inversion Hp; subst; cbn [length]; lia.
Qed.

Lemma uint_len v : v < 2 ^ 32 -> (length (der_uint v) <= 5)%nat.
Proof.
  intros H. pose proof (shortest_be_len v (be_min v) 4 (be_min_shortest v) H) as B. unfold der_uint.
  destruct (be_min v) as [|b l]; cbn [length] in *; [lia|]. destruct (N.ltb b 128); cbn [length]; lia.
Qed.
Lemma uint_pos v : (1 <= length (der_uint v))%nat.
Proof. unfold der_uint. destruct (be_min v) as [|b l]; [cbn [length]; lia|]. destruct (N.ltb b 128); cbn [length]; lia. Qed.
Lemma tci_sizes cf : tci_size cf = 32%nat \/ tci_size cf = 48%nat.
Proof. unfold tci_size. destruct (_ || _); auto. Qed.

(** The TcbInfos of a chain given leaf first, in the order root to leaf. *)
Definition chain_infos (p : profile) (recursive : bool) (cts : list context) : list der :=
  map (fun c => tcb_info p recursive (c_tci c)) (rev cts).

Section Chain.
  Variable cf : config.
  Hypothesis Hcf : config_ok cf.
  Variable s : state.
  Hypothesis W : wf cf s.
  Variables (i : nat) (cts : list context).
  Hypothesis Hlin : lineage s i cts.
  Variable md : measurement_data.
  Hypothesis Hstart : md_start md = i.
  Hypothesis Hctxs : md_contexts md = st_contexts s.
  Let p := prof cf.
  Let rec := md_recursive md.
  Let its := chain_infos p rec cts.

  Lemma chain_nonempty : cts <> [].
  Proof.
    destruct Hlin as (l & P & F0). destruct (path_head _ _ _ P) as (l' & ->). inversion F0; discriminate.
  Qed.

  Lemma collect_chain : collect cf md = Ok (rev cts).
  Proof.
    destruct (walk_new cf Hcf s (wf_forest _ _ W) i cts Hlin) as (it & E1 & _ & _ & E2 & _).
    unfold collect, nodes_iter. rewrite Hstart, Hctxs, E1. cbn [rbind]. apply E2. apply Hcf.
  Qed.

  Lemma iter_chain : exists it root, nodes_iter cf md = Ok it /\ it_path_len it = length cts /\
    fst (iter_next_back cf (md_contexts md) it) = Some (Ok root) /\ exists l, cts = l ++ [root].
  Proof.
    destruct (walk_new cf Hcf s (wf_forest _ _ W) i cts Hlin) as (it & E1 & EC & _ & _ & EL).
    destruct (exists_last chain_nonempty) as (l & root & El).
    exists it, root. unfold nodes_iter. rewrite Hstart, Hctxs, E1. split; [reflexivity|]. split; [exact EL|].
    split; [|eauto]. specialize (EC [true]). cbn [calls] in EC.
    destruct (iter_next_back cf (st_contexts s) it) as [o it']. cbn [fst]. revert EC. rewrite El. destruct (l ++ [root]) as [|x l'] eqn:Ex; [destruct l; discriminate|].
    cbn [pops map option_map]. rewrite <- Ex, last_last. intros EC. injection EC as ->. reflexivity.
  Qed.

  Lemma declared_root : exists l root, cts = l ++ [root] /\
    declared cf md = Ok (N.of_nat (length cts) * get_tcb_info_size cf (c_tci root) rec true).
  Proof.
    destruct iter_chain as (it & root & E1 & E2 & E3 & l & El). exists l, root. split; [exact El|].
    unfold declared, nodes_empty, nodes_num, nodes_first. rewrite E1. cbn [rbind]. rewrite E2, E3. cbn [rbind ok_or].
    destruct (Nat.eqb_spec (length cts) 0) as [Z|Z]; [|reflexivity].
    rewrite El, app_length in Z. cbn [length] in Z. lia.
  Qed.

  Lemma chain_slot c : In c cts -> slot_ok cf s c.
  Proof. apply (lineage_slots cf s i cts W Hlin). Qed.
  Lemma chain_svn c : In c cts -> tci_svn (c_tci c) < 2 ^ 32.
  Proof. intros H. apply (so_svn _ _ _ (chain_slot c H)). Qed.

  (** The size of a TcbInfo is a constant and the length of the SVN. *)
  Lemma svn_len_spec c : In c cts -> get_integer_size (tci_svn (c_tci c)) true = 2 + N.of_nat (svn_len c) /\ (svn_len c <= 5)%nat.
  Proof.
    intros Hc. unfold get_integer_size. rewrite get_int_tagged. fold (svn_octets (c_tci c)). rewrite (svn_spec _ (chain_svn c Hc)).
    assert (B : (svn_len c <= 5)%nat) by (apply uint_len, (chain_svn c Hc)). split; [|exact B].
    fold (len (der_uint (tci_svn (c_tci c)))). rewrite gss_unfold.
    unfold get_size_width, len. fold (svn_len c). destruct (N.ltb_spec (N.of_nat (svn_len c)) 128); lia.
  Qed.
  Lemma info_len : exists k, k <= 200 /\ forall c, In c cts -> get_tcb_info_size cf (c_tci c) rec true = k + N.of_nat (svn_len c).
  Proof.
    assert (HO : len (hash_oid cf) = 9) by (unfold hash_oid; destruct (prof cf); reflexivity).
    exists (get_tcb_info_size cf (mkTci 0 (repeat 0 (tci_size cf)) (repeat 0 (tci_size cf)) 0 0) rec true - 1).
    split.
    { unfold get_tcb_info_size, get_fwid_size, get_bytes_size. cbn [tci_current tci_cumulative tci_svn]. unfold len. rewrite !repeat_length.
      fold (len (hash_oid cf)). rewrite HO. destruct (tci_sizes cf) as [->| ->]; destruct rec; apply N.leb_le; reflexivity. }
    intros c Hc. destruct (svn_len_spec c Hc) as [E1 B].
    unfold get_tcb_info_size, get_fwid_size, get_bytes_size. rewrite E1. unfold len.
    destruct (so_current _ _ _ (chain_slot c Hc)) as [-> _], (so_cumulative _ _ _ (chain_slot c Hc)) as [-> _].
    cbn [tci_current tci_cumulative tci_svn]. rewrite repeat_length. fold (len (hash_oid cf)). rewrite HO.
    destruct (tci_sizes cf) as [->| ->]; destruct rec; 
      assert (svn_len c = 1 \/ svn_len c = 2 \/ svn_len c = 3 \/ svn_len c = 4 \/ svn_len c = 5)%nat as [->|[->|[->|[->| ->]]]]
        by (pose proof (uint_pos (tci_svn (c_tci c))); unfold svn_len in *; lia); reflexivity.
  Qed.

  Lemma chain_infos_bytes : infos cf md (rev cts) = concat (map E its).
  Proof. apply infos_der. intros c Hc. apply chain_svn. apply in_rev, Hc. Qed.

  Lemma infos_len : exists k, k <= 200 /\
    (forall c, In c cts -> get_tcb_info_size cf (c_tci c) rec true = k + N.of_nat (svn_len c)) /\
    len (concat (map E its)) = N.of_nat (length cts) * k + N.of_nat (list_sum (map svn_len cts)).
  Proof.
    destruct info_len as (k & Bk & Hk). exists k. split; [exact Bk|]. split; [exact Hk|].
    rewrite <- chain_infos_bytes. unfold infos.
    assert (G : forall l, incl l cts -> len (concat (map (fun c => E (tcb_der cf (md_recursive md) (c_tci c))) l))
                = N.of_nat (length l) * k + N.of_nat (list_sum (map svn_len l))).
    { induction l as [|c l IH]; intros HI; [reflexivity|]. cbn [map concat length list_sum fold_right]. fold (list_sum (map svn_len l)).
      rewrite len_app, IH, len_tcb by (intros x Hx; apply HI; right; exact Hx).
      fold rec. rewrite (Hk c) by (apply HI; left; reflexivity). lia. }
    rewrite G by (intros x Hx; apply in_rev, Hx). rewrite rev_length, map_rev.
    assert (R : forall l, list_sum (rev l) = list_sum l).
    { induction l as [|x l IH]; [reflexivity|]. cbn [rev]. rewrite list_sum_app, IH. change (list_sum [x]) with (x + 0)%nat. change (list_sum (x :: l)) with (x + list_sum l)%nat. lia. }
    rewrite R. reflexivity.
  Qed.

  (** The declared size is right exactly if the SVNs are even. *)
  Lemma declared_size : exists D, declared cf md = Ok D /\ (D = len (concat (map E its)) <-> even_svns cts) /\
    D <= 64 * 256.
  Proof.
    destruct declared_root as (l & root & El & ->). eexists. split; [reflexivity|].
    assert (HR : In root cts) by (rewrite El; apply in_or_app; right; left; reflexivity).
    destruct infos_len as (k & Bk & Hk & ->). split.
    - rewrite (Hk root HR). split.
      + intros HD l' root' El'. rewrite El in El'. apply app_inj_tail in El' as [_ <-]. lia.
      + intros HE. rewrite (HE l root El). lia.
    - pose proof (lineage_bound cf s i cts W Hlin) as LB. destruct Hcf as [HM _].
      assert (get_tcb_info_size cf (c_tci root) rec true <= 256); [|nia].
      rewrite (Hk root HR). destruct (svn_len_spec root HR) as [_ B]. lia.
  Qed.
  Lemma declared_even : even_svns cts -> declared cf md = Ok (len (concat (map E its))).
  Proof. intros HE. destruct declared_size as (D & -> & HD & _). f_equal. apply HD, HE. Qed.

  Lemma rexts_even crit : even_svns cts ->
    rexts cf crit md true = Ok (E (CTX 3 [extensions true (xd crit md) its])).
  Proof.
    intros HE. unfold rexts. rewrite (declared_even HE), collect_chain. cbn [rbind]. f_equal.
    rewrite chain_infos_bytes. apply exts_field_der.
  Qed.
  Lemma rattrs_even crit : even_svns cts ->
    rattrs cf crit md = Ok (E (CTX 0 [SEQUENCE [OID id_extensionRequest; SET [extensions false (xd crit md) its]]])).
  Proof.
    intros HE. unfold rattrs. rewrite (declared_even HE), collect_chain. cbn [rbind]. f_equal.
    rewrite chain_infos_bytes. apply attrs_raw_der.
  Qed.

  (** What is written with a wrong declared size: a field whose length octets do not
      give its length. *)
  Definition mis_sized (tag : N) (b : bytes) : Prop :=
    exists D rest, b = tag :: code_len D ++ rest /\ len rest <> D /\ D <= len rest + 64 * 256.
  Lemma len_multi_raw crit D I : len (multi_raw crit D I) + D = get_extension_size oid_multi_tcb crit (gss D) true + len I.
  Proof.
    unfold multi_raw. rewrite len_app, len_cons, len_app, len_code_len. pose proof (len_ext_head oid_multi_tcb crit (gss D)) as HL.
    pose proof (gss_unfold D). lia.
  Qed.
  Lemma len_exts_raw crit x509 D I : len (exts_raw crit md x509 D I) + D = gss (exts_len crit md x509 D) + len I.
  Proof.
    unfold exts_raw. rewrite len_cons, !len_app, len_code_len. pose proof (len_multi_raw crit D I).
    rewrite (gss_unfold (exts_len _ _ _ _)).
    assert (EL : exts_len crit md x509 D = get_extension_size oid_multi_tcb crit (gss D) true + len (others crit md x509)) by reflexivity.
    lia.
  Qed.
  Lemma rexts_odd crit : ~ even_svns cts -> exists b, rexts cf crit md true = Ok b /\ mis_sized 0xA3 b.
  Proof.
    intros HE. destruct declared_size as (D & ED & HD & BD). unfold rexts. rewrite ED, collect_chain. cbn [rbind].
    eexists. split; [reflexivity|]. rewrite chain_infos_bytes. set (I := concat (map E its)) in *.
    assert (D <> len I) as HN by (intros HN; apply HE, HD, HN). pose proof (len_exts_raw crit true D I).
    unfold exts_field. cbn [app]. eexists _, _. split; [reflexivity|]. lia.
  Qed.
  Lemma rattrs_odd crit : ~ even_svns cts -> exists b, rattrs cf crit md = Ok b /\ mis_sized 0xA0 b.
  Proof.
    intros HE. destruct declared_size as (D & ED & HD & BD). unfold rattrs. rewrite ED, collect_chain. cbn [rbind].
    eexists. split; [reflexivity|]. rewrite chain_infos_bytes. set (I := concat (map E its)) in *.
    assert (D <> len I) as HN by (intros HN; apply HE, HD, HN). pose proof (len_exts_raw crit false D I).
    unfold attrs_raw. eexists _, _. split; [reflexivity|].
    rewrite !len_cons, !len_app, !len_cons, !len_app, !len_code_len, len_tlv. unfold attr_len.
    rewrite (gss_unfold (_ + gss _)). rewrite (gss_unfold (gss (exts_len _ _ _ _))). lia.
  Qed.
End Chain.

(** ** Whole outputs *)

Lemma E_seq l : E (SEQUENCE l) = tlv code_len 0x30 (concat (map E l)).
Proof. reflexivity. Qed.
Lemma E_opaque b : E (Opaque b) = b.
Proof. reflexivity. Qed.


(** The length fields that are filled in afterwards have room for 256 to 65535. *)
Definition wide (t : der) : Prop :=
  match t with Cons _ ks | Wrap _ _ ks => 256 <= len (concat (map enc ks)) < 65536 | _ => True end.

Lemma rwrap_list tag l : rwrap tag (Ok (concat (map E l))) =
  if N.eqb (get_size_width (len (concat (map E l)))) 3 then Ok (E (Cons tag l)) else Err X509InvalidWidth.
Proof. reflexivity. Qed.

Lemma len_E_wide tag l : get_size_width (len (concat (map E l))) = 3 -> len (E (Cons tag l)) < 65540.
Proof.
  intros H. pose proof (proj1 (width3 _) H). cbn [enc_with]. rewrite len_tlv, gss_unfold, H. lia.
Qed.

Lemma map_E_enc l : len (concat (map E l)) < 2 ^ 32 -> map E l = map enc l.
Proof.
  induction l as [|t l IH]; intros H; [reflexivity|]. cbn [map concat] in *. rewrite len_app in H.
  f_equal; [apply E_enc; lia|apply IH; lia].
Qed.

Lemma wide_enc tag l : get_size_width (len (concat (map E l))) = 3 -> wide (Cons tag l).
Proof.
  intros H. apply width3 in H. unfold wide. rewrite <- map_E_enc by lia. exact H.
Qed.
Lemma wide_len tag l : wide (Cons tag l) -> get_size_width (len (concat (map E l))) = 3.
Proof.
  unfold wide. intros H. assert (EQ : map E l = map enc l).
  { generalize H; clear H. intros [_ H]. revert H. induction l as [|t l IH]; intros H; [reflexivity|].
    cbn [map concat] in *. rewrite len_app in H. f_equal; [apply enc_E; lia|apply IH; lia]. }
  rewrite EQ. apply width3, H.
Qed.

Section Whole.
  Variable cf : config.
  Variable C : Type.
  Variable cb : sign_data -> bool -> C -> (signature + crypto_error) * C.
  Let p := prof cf.

  (** A signed structure around a body that is known. *)
  Lemma fsigned_tree l derived c bs c' :
    fsigned cf C cb (flift (rwrap 0x30 (Ok (concat (map E l))))) derived c = (Ok bs, c') ->
    wide (SEQUENCE l) /\
    exists g, cb (SDBuffer (enc (SEQUENCE l))) derived c = (inl g, c') /\
      bs = E (signed p (SEQUENCE l) g) /\ len bs < 65540 /\ wide (signed p (SEQUENCE l) g).
  Proof.
    rewrite rwrap_list. unfold fsigned, fwrap, fbind, flift. cbn [fst snd].
    destruct (N.eqb_spec (get_size_width (len (concat (map E l)))) 3) as [W1|]; [|discriminate].
    unfold fsign. change (Cons 0x30 l) with (SEQUENCE l).
    assert (EE : E (SEQUENCE l) = enc (SEQUENCE l)).
    { apply E_enc. pose proof (len_E_wide 0x30 l W1). change (len (E (Cons 0x30 l)) < 2 ^ 32). lia. }
    rewrite <- EE. destruct (cb (SDBuffer (E (SEQUENCE l))) derived c) as [[g|e] c1]; [|discriminate].
    assert (EB : E (SEQUENCE l) ++ bits_of cf g = concat (map E [SEQUENCE l; alg_id (sig_alg_oid p); signature_bits g])).
    { cbn [map concat]. rewrite app_nil_r. reflexivity. }
    rewrite EB. match goal with |- context [N.eqb ?x 3] => destruct (N.eqb_spec x 3) as [W2|] end; [|discriminate].
    intros E0. pose proof (f_equal fst E0) as E1. pose proof (f_equal snd E0) as E2. cbn [fst snd] in *.
    apply ok_inj in E1. subst bs c1. split; [exact (wide_enc 0x30 l W1)|]. exists g. split; [reflexivity|].
    split; [reflexivity|]. split.
    - apply (len_E_wide 0x30 _ W2).
    - apply (wide_enc 0x30 _ W2).
  Qed.
  Lemma fsigned_ok l derived c c' g : wide (SEQUENCE l) ->
    cb (SDBuffer (enc (SEQUENCE l))) derived c = (inl g, c') -> wide (signed p (SEQUENCE l) g) ->
    fsigned cf C cb (flift (rwrap 0x30 (Ok (concat (map E l))))) derived c
      = (Ok (E (signed p (SEQUENCE l) g)), c').
  Proof.
    intros W1 HC W2. rewrite rwrap_list. unfold fsigned, fwrap, fbind, flift. cbn [fst snd].
    apply (wide_len 0x30) in W1. rewrite W1. cbn [N.eqb Pos.eqb].
    unfold fsign. change (Cons 0x30 l) with (SEQUENCE l).
    rewrite (E_enc (SEQUENCE l)) by (pose proof (len_E_wide 0x30 l W1); change (len (E (Cons 0x30 l)) < 2 ^ 32); lia).
    rewrite HC. rewrite <- (E_enc (SEQUENCE l)) by (pose proof (len_E_wide 0x30 l W1); change (len (E (Cons 0x30 l)) < 2 ^ 32); lia).
    assert (EB : E (SEQUENCE l) ++ bits_of cf g = concat (map E [SEQUENCE l; alg_id (sig_alg_oid p); signature_bits g])).
    { cbn [map concat]. rewrite app_nil_r. reflexivity. }
    rewrite EB. apply (wide_len 0x30) in W2. rewrite W2. reflexivity.
  Qed.

  Definition tbs_items (serial : N) (issuer subject : der) (v : cert_validity) (spki exts : der) : list der :=
    [ CTX 0 [INTEGER 2]; INTEGER serial; alg_id (sig_alg_oid p); issuer;
      SEQUENCE [GENERALIZED_TIME (cv_not_before v); GENERALIZED_TIME (cv_not_after v)];
      subject; spki; exts ].
  Lemma rtbs_items crit md serial issuer subject pk v x :
    key_of p pk -> all_bytes serial -> serial <> [] -> rexts cf crit md true = Ok (E x) ->
    rtbs cf crit md serial issuer subject pk v
    = Ok (concat (map E (tbs_items (be_val serial) (Opaque issuer) (name_der subject) v
                                   (subject_public_key_info pk) x))).
  Proof.
    intros HK HB Hn HX. unfold rtbs, rspki. rewrite (spki_match cf pk HK), HX. cbn [rbind].
    rewrite code_int_correct by assumption. f_equal. unfold tbs_items. cbn [map concat]. rewrite app_nil_r. reflexivity.
  Qed.

  Definition info_items (subject spki exts : der) : list der :=
    [ INTEGER 0; subject; spki; exts ].
  Lemma rinfo_items crit md subject pk x :
    key_of p pk -> rattrs cf crit md = Ok (E x) ->
    rinfo cf crit md subject pk
    = Ok (concat (map E (info_items (name_der subject) (subject_public_key_info pk) x))).
  Proof.
    intros HK HX. unfold rinfo, rspki. rewrite (spki_match cf pk HK), HX. cbn [rbind]. f_equal.
    unfold info_items. cbn [map concat]. rewrite app_nil_r. reflexivity.
  Qed.

  (** What a writer that started on an empty buffer did. *)
  Lemma fresh_ok (f : gen C) (buf : bytes) c n (w' : cw C) : outcome true f (cw_new buf c) (Ok n) w' ->
    exists bs, f c = (Ok bs, cw_c w') /\ n = len bs /\ len bs <= len buf /\
      cw_buf w' = bs ++ skipn (N.to_nat (len bs)) buf.
  Proof.
    intros O. inversion O as [bs c1 w1 Hf K P Hk Eo Eb Es Ec| | |]; subst. exists bs. split; [exact Hf|].
    split; [reflexivity|]. specialize (Hk eq_refl). unfold fits in Hk. cbn [cw_new cw_off cw_buf] in Hk.
    split; [lia|]. rewrite P by exact Hk. unfold put_at. cbn [cw_new cw_off cw_buf].
    destruct (N.leb_spec (0 + len bs) (len buf)); [|lia]. cbn [N.to_nat firstn app]. do 2 f_equal.
    unfold len. lia.
  Qed.
  Lemma fresh_done (f : gen C) (buf : bytes) c bs c' r (w' : cw C) : outcome true f (cw_new buf c) r w' ->
    f c = (Ok bs, c') -> len bs <= len buf -> r = Ok (len bs) /\ cw_c w' = c'.
  Proof.
    intros O Hf HL. inversion O as [b1 c1 w1 Hf' K P Hk Eo Eb Es Ec|e c1 w1 Hf'|x c1 w1 Hf'|w1 K Hn]; subst;
      cbn [cw_new cw_c] in *; try congruence.
    - rewrite Hf in Hf'. injection Hf' as <- <-. split; [reflexivity|exact eq_refl].
    - exfalso. apply (Hn _ _ Hf). unfold fits. cbn [cw_new cw_off cw_buf]. lia.
  Qed.

  Lemma enc_swap a b l r : enc a = enc b -> enc (SEQUENCE (l ++ a :: r)) = enc (SEQUENCE (l ++ b :: r)).
  Proof.
    intros H. unfold enc, SEQUENCE in *. cbn [enc_with]. f_equal. rewrite !map_app. cbn [map]. rewrite H. reflexivity.
  Qed.
  Lemma wide_swap a b l r : enc a = enc b -> wide (SEQUENCE (l ++ a :: r)) <-> wide (SEQUENCE (l ++ b :: r)).
  Proof.
    intros H. unfold wide, SEQUENCE in *. rewrite !map_app. cbn [map]. rewrite H. reflexivity.
  Qed.

  Section Cert.
    Variables (crit : bool) (md : measurement_data) (serial issuer : bytes) (subject : name)
              (pk : pubkey) (v : cert_validity) (x idn : der).
    Hypothesis HK : key_of p pk.
    Hypothesis HB : all_bytes serial.
    Hypothesis Hn : serial <> [].
    Hypothesis HX : rexts cf crit md true = Ok (E x).
    Hypothesis HI : enc idn = issuer.
    Let tbs := SEQUENCE (tbs_items (be_val serial) idn (name_der subject) v (subject_public_key_info pk) x).

    Let tbs0 := SEQUENCE (tbs_items (be_val serial) (Opaque issuer) (name_der subject) v (subject_public_key_info pk) x).
    Lemma tbs0_enc : enc tbs0 = enc tbs.
    Proof.
      apply (enc_swap (Opaque issuer) idn [CTX 0 [INTEGER 2]; INTEGER (be_val serial); alg_id (sig_alg_oid p)]).
      symmetry. exact HI.
    Qed.
    Lemma tbs0_wide : wide tbs0 <-> wide tbs.
    Proof.
      apply (wide_swap (Opaque issuer) idn [CTX 0 [INTEGER 2]; INTEGER (be_val serial); alg_id (sig_alg_oid p)]).
      symmetry. exact HI.
    Qed.
    Lemma cert0_enc g : enc (signed p tbs0 g) = enc (signed p tbs g).
    Proof. apply (enc_swap tbs0 tbs []). exact tbs0_enc. Qed.
    Lemma cert0_wide g : wide (signed p tbs0 g) <-> wide (signed p tbs g).
    Proof. apply (wide_swap tbs0 tbs []). exact tbs0_enc. Qed.

    Theorem certificate_written buf c n w' :
      encode_certificate cf crit C cb serial issuer subject pk md v (cw_new buf c) = (Ok n, w') ->
      exists g, cb (SDBuffer (enc tbs)) false c = (inl g, cw_c w') /\
        n = len (enc (signed p tbs g)) /\ n <= len buf /\
        cw_buf w' = enc (signed p tbs g) ++ skipn (N.to_nat n) buf /\
        wide tbs /\ wide (signed p tbs g).
    Proof.
      intros E0. pose proof (runs_certificate cf C cb crit md serial issuer subject pk v (cw_new buf c) eq_refl) as O.
      specialize (O ltac:(cbn [cw_new cw_back length]; unfold max_backtracks; lia)). unfold outc in O. rewrite E0 in O. cbn [fst snd] in O.
      apply fresh_ok in O. destruct O as (bs & Hf & -> & HL & Hbuf).
      rewrite (rtbs_items crit md serial issuer subject pk v x HK HB Hn HX) in Hf.
      apply fsigned_tree in Hf. fold tbs0 in Hf. destruct Hf as (W1 & g & Hcb & Ebs & LB & W2).
      assert (EE : bs = enc (signed p tbs g)).
      { rewrite Ebs, <- cert0_enc. apply E_enc. rewrite <- Ebs. lia. }
      exists g. rewrite tbs0_enc in Hcb. rewrite tbs0_wide in W1. rewrite cert0_wide in W2.
      rewrite <- EE. auto 8.
    Qed.
    Theorem certificate_complete buf c c' g :
      cb (SDBuffer (enc tbs)) false c = (inl g, c') -> wide tbs -> wide (signed p tbs g) ->
      len (enc (signed p tbs g)) <= len buf ->
      fst (encode_certificate cf crit C cb serial issuer subject pk md v (cw_new buf c))
      = Ok (len (enc (signed p tbs g))).
    Proof.
      intros Hcb W1 W2 HL. pose proof (runs_certificate cf C cb crit md serial issuer subject pk v (cw_new buf c) eq_refl) as O.
      specialize (O ltac:(cbn [cw_new cw_back length]; unfold max_backtracks; lia)). unfold outc in O.
      apply tbs0_wide in W1. apply cert0_wide in W2. rewrite <- tbs0_enc in Hcb.
      pose proof (fsigned_ok _ false c c' g W1 Hcb W2) as Hf.
      rewrite <- (rtbs_items crit md serial issuer subject pk v x HK HB Hn HX) in Hf.
      assert (EE : E (signed p tbs0 g) = enc (signed p tbs g)).
      { rewrite <- cert0_enc. apply E_enc. apply N.lt_trans with 65540; [|lia]. apply (len_E_wide 0x30). apply (wide_len 0x30). exact W2. }
      fold tbs0 in Hf. rewrite EE in Hf. apply (fresh_done _ _ _ _ _ _ _ O Hf HL).
    Qed.
  End Cert.

  (** *** CMS *)

  Lemma rwrap_cases tag bs : rwrap tag (Ok bs) =
    if N.eqb (get_size_width (len bs)) 3 then Ok (tlv code_len tag bs) else Err X509InvalidWidth.
  Proof. reflexivity. Qed.
  Lemma one t : E t = concat (map E [t]).
  Proof. cbn [map concat]. rewrite app_nil_r. reflexivity. Qed.
  Lemma two a b : E a ++ E b = concat (map E [a; b]).
  Proof. cbn [map concat]. rewrite app_nil_r. reflexivity. Qed.
  Lemma E_cons tag l : tlv code_len tag (concat (map E l)) = E (Cons tag l).
  Proof. reflexivity. Qed.

  (** SEQUENCE { oid, [0] { x } } with both lengths filled in afterwards. *)
  Lemma nest_ok oid t arcs r : oid = oid_content arcs ->
    rwrap 0x30 (rapp (Ok (tlv code_len 6 oid)) (rwrap 0xA0 (Ok (E t)))) = Ok r ->
    r = E (SEQUENCE [OID arcs; CTX 0 [t]]) /\ len r < 65540.
  Proof.
    intros ->. rewrite (one t), rwrap_list.
    destruct (N.eqb_spec (get_size_width (len (concat (map E [t])))) 3) as [W1|]; [|discriminate].
    cbn [rapp rbind]. change (tlv code_len 6 (oid_content arcs)) with (E (OID arcs)). rewrite two, rwrap_list.
    match goal with |- context [N.eqb ?x 3] => destruct (N.eqb_spec x 3) as [W2|] end; [|discriminate].
    intros E0. apply ok_inj in E0. subst r. split; [reflexivity|]. apply (len_E_wide 0x30 _ W2).
  Qed.
  Lemma width4 n : 65536 <= n -> 4 <= get_size_width n.
  Proof.
    unfold get_size_width.
    destruct (N.ltb_spec n 128), (N.ltb_spec n 256), (N.ltb_spec n 65536), (N.ltb_spec n 16777216); lia.
  Qed.
  Lemma width_room n : 256 <= n -> 1 + get_size_width n + n < 65540 -> get_size_width n = 3.
  Proof.
    intros H1 H2. apply width3. split; [exact H1|]. destruct (N.lt_ge_cases n 65536) as [|G]; [assumption|].
    pose proof (width4 n G). lia.
  Qed.
  Lemma nest_done oid t arcs : oid = oid_content arcs -> 256 <= len (E t) ->
    len (E (SEQUENCE [OID arcs; CTX 0 [t]])) < 65540 ->
    rwrap 0x30 (rapp (Ok (tlv code_len 6 oid)) (rwrap 0xA0 (Ok (E t)))) = Ok (E (SEQUENCE [OID arcs; CTX 0 [t]])).
  Proof.
    intros -> H1 H2. unfold SEQUENCE in H2. rewrite <- E_cons, <- two, len_tlv, gss_unfold, len_app in H2.
    unfold CTX in H2 at 2. rewrite <- E_cons, <- one, len_tlv, gss_unfold in H2.
    assert (WW : get_size_width (len (E t)) = 3) by (apply width_room; lia).
    assert (EL : len (E (CTX 0 [t])) = 1 + 3 + len (E t)).
    { unfold CTX. rewrite <- E_cons, <- one, len_tlv, gss_unfold, WW. reflexivity. }
    rewrite rwrap_cases, WW. cbn [N.eqb Pos.eqb rapp rbind]. rewrite (one t), E_cons.
    change (Cons 0xA0 [t]) with (CTX 0 [t]).
    change (tlv code_len 6 (oid_content arcs)) with (E (OID arcs)). rewrite two, rwrap_list, <- two, len_app.
    rewrite EL. unfold CTX in H2 at 1. rewrite <- E_cons, <- one, len_tlv, gss_unfold, WW in H2.
    rewrite (width_room (len (E (OID arcs)) + (1 + 3 + len (E t)))) by lia. reflexivity.
  Qed.

  Definition encap_der (csr : der) : der := SEQUENCE [OID id_data; CTX 0 [OCTETS_OF csr]].
  Lemma octets_of t : tlv code_len 4 (E t) = E (OCTETS_OF t).
  Proof. unfold OCTETS_OF. cbn [enc_with map concat app]. rewrite app_nil_r. reflexivity. Qed.
  Lemma rencap_tree csr e : rencap (E csr) = Ok e -> e = E (encap_der csr) /\ len e < 65540.
  Proof.
    unfold rencap. rewrite rwrap_cases.
    destruct (N.eqb_spec (get_size_width (len (E csr))) 3) as [W1|]; [|discriminate].
    rewrite octets_of. apply nest_ok. reflexivity.
  Qed.
  Lemma rencap_done csr : 256 <= len (E csr) -> len (E (encap_der csr)) < 65540 -> rencap (E csr) = Ok (E (encap_der csr)).
  Proof.
    intros H1 H2. unfold rencap. rewrite rwrap_cases.
    assert (H3 : len (E (OCTETS_OF csr)) = 1 + get_size_width (len (E csr)) + len (E csr)).
    { rewrite <- octets_of, len_tlv, gss_unfold. reflexivity. }
    assert (H4 : len (E (OCTETS_OF csr)) < 65540).
    { apply N.le_lt_trans with (2 := H2). unfold encap_der, SEQUENCE. rewrite <- E_cons, <- two, len_tlv, gss_unfold, len_app.
      unfold CTX. rewrite <- E_cons, <- one, len_tlv, gss_unfold. lia. }
    rewrite (width_room (len (E csr)) H1) by lia. cbn [N.eqb Pos.eqb]. rewrite octets_of. apply nest_done; [reflexivity| |exact H2].
    lia.
  Qed.

  Section Request.
    Variables (crit : bool) (md : measurement_data) (subject : name) (pk : pubkey) (sid : signer_identifier) (x sidt : der).
    Hypothesis HK : key_of p pk.
    Hypothesis HX : rattrs cf crit md = Ok (E x).
    Hypothesis HS : enc sidt = enc (sid_der sid).
    Let info := SEQUENCE (info_items (name_der subject) (subject_public_key_info pk) x).
    Let v := cms_version sid.
    Definition sdata0 (csr : der) (g : signature) : der :=
      SEQUENCE [INTEGER v; SET [alg_id (digest_oid p)]; encap_der csr; SET [sinfo_der cf sid g]].

    Lemma sinfo_swap g : enc (sinfo_der cf sid g) = enc (signer_info p v sidt g).
    Proof. symmetry. apply (enc_swap sidt (sid_der sid) [INTEGER v]). exact HS. Qed.
    Lemma set_swap a b : enc a = enc b -> enc (SET [a]) = enc (SET [b]).
    Proof. intros H. unfold enc, SET in *. cbn [enc_with map concat]. rewrite H. reflexivity. Qed.
    Lemma sdata_swap csr g : enc (sdata0 csr g) = enc (signed_data p v csr (signer_info p v sidt g)).
    Proof.
      apply (enc_swap (SET [sinfo_der cf sid g]) (SET [signer_info p v sidt g])
               [INTEGER v; SET [alg_id (digest_oid p)]; encap_der csr] []).
      apply set_swap, sinfo_swap.
    Qed.
    Lemma content_swap a b : enc a = enc b -> enc (content_info a) = enc (content_info b).
    Proof.
      intros H. apply (enc_swap (CTX 0 [a]) (CTX 0 [b]) [OID id_signedData] []).
      unfold enc, CTX in *. cbn [enc_with map concat]. rewrite H. reflexivity.
    Qed.

    Lemma sd_items csr g : sd_head cf sid ++ E (encap_der csr) ++ sinfos cf sid g
      = concat (map E [INTEGER v; SET [alg_id (digest_oid p)]; encap_der csr; SET [sinfo_der cf sid g]]).
    Proof. unfold sd_head, sinfos. cbn [map concat]. rewrite app_nil_r, <- app_assoc. reflexivity. Qed.

    Lemma rcms_tree csr g r : rcms (sd_head cf sid ++ E (encap_der csr) ++ sinfos cf sid g) = Ok r ->
      r = E (content_info (sdata0 csr g)) /\ len r < 65540.
    Proof.
      rewrite sd_items. unfold rcms. rewrite rwrap_list.
      match goal with |- context [N.eqb ?y 3] => destruct (N.eqb_spec y 3) as [W1|] end; [|discriminate].
      apply nest_ok. reflexivity.
    Qed.
    Lemma rcms_done csr g : 256 <= len (E (encap_der csr)) -> len (E (content_info (sdata0 csr g))) < 65540 ->
      rcms (sd_head cf sid ++ E (encap_der csr) ++ sinfos cf sid g) = Ok (E (content_info (sdata0 csr g))).
    Proof.
      intros H1 H2. rewrite sd_items. unfold rcms.
      set (l := [INTEGER v; SET [alg_id (digest_oid p)]; encap_der csr; SET [sinfo_der cf sid g]]).
      assert (H3 : len (E (sdata0 csr g)) = 1 + get_size_width (len (concat (map E l))) + len (concat (map E l))).
      { unfold sdata0, SEQUENCE. rewrite <- E_cons, len_tlv, gss_unfold. reflexivity. }
      assert (H4 : 256 <= len (concat (map E l))).
      { unfold l. cbn [map concat]. rewrite !len_app. lia. }
      assert (H5 : len (E (sdata0 csr g)) < 65540).
      { apply N.le_lt_trans with (2 := H2). unfold content_info. unfold SEQUENCE. rewrite <- E_cons, <- two, len_tlv, gss_unfold, len_app.
        unfold CTX. rewrite <- E_cons, <- one, len_tlv, gss_unfold. lia. }
      rewrite rwrap_list. rewrite (width_room _ H4) by lia. cbn [N.eqb Pos.eqb].
      apply nest_done; [reflexivity| |exact H2]. fold (sdata0 csr g). change (Cons 0x30 l) with (sdata0 csr g). lia.
    Qed.

    Theorem cms_written buf c n w' :
      encode_cms cf crit C cb pk subject md sid (cw_new buf c) = (Ok n, w') ->
      exists g1 c1 g2, cb (SDBuffer (enc info)) true c = (inl g1, c1) /\
        cb (SDBuffer (enc (signed p info g1))) false c1 = (inl g2, cw_c w') /\
        let m := content_info (signed_data p v (signed p info g1) (signer_info p v sidt g2)) in
        n = len (enc m) /\ n <= len buf /\ cw_buf w' = enc m ++ skipn (N.to_nat n) buf /\
        wide info /\ n < 65540.
    Proof.
      intros E0.
      pose proof (runs_cms cf crit C cb pk subject md sid 2 (fcsr cf C cb crit md subject pk) (cw_new buf c)
                    (runs_csr cf C cb crit md subject pk)) as O.
      specialize (O ltac:(unfold max_backtracks; lia) eq_refl eq_refl). unfold outc in O. rewrite E0 in O. cbn [fst snd] in O.
      apply fresh_ok in O. destruct O as (bs & Hf & -> & HL & Hbuf).
      unfold fcms, fsd, fcsr in Hf. unfold fbind at 1 2 in Hf.
      rewrite (rinfo_items crit md subject pk x HK HX) in Hf.
      destruct (fsigned _ _ _ _ _ c) as [[csr| |] c1] eqn:E1; [|discriminate..].
      apply fsigned_tree in E1. destruct E1 as (W1 & g1 & Hcb & Ecsr & LB & W2).
      unfold fbind in Hf. unfold flift at 1 in Hf. 
      rewrite Ecsr in Hf.
      fold info in Hf, W1, Hcb, Ecsr, W2.
      destruct (rencap (E (signed p info g1))) as [e| |] eqn:E2; [|discriminate..].
      apply rencap_tree in E2. destruct E2 as [-> LE].
      unfold fsign in Hf. destruct (cb (SDBuffer (E (signed p info g1))) false c1) as [[g2|] c2] eqn:Hcb2; [|discriminate].
      unfold flift in Hf. pose proof (f_equal fst Hf) as H1. pose proof (f_equal snd Hf) as H2. cbn [fst snd] in H1, H2.
      apply rcms_tree in H1. destruct H1 as [Ebs LB2]. 
      assert (EC : E (signed p info g1) = enc (signed p info g1)) by (apply E_enc; rewrite <- Ecsr; lia).
      assert (EM : bs = enc (content_info (signed_data p v (signed p info g1) (signer_info p v sidt g2)))).
      { rewrite Ebs, <- (content_swap _ _ (sdata_swap (signed p info g1) g2)). apply E_enc. rewrite <- Ebs. lia. }
      exists g1, c1, g2. split; [exact Hcb|]. split; [rewrite <- EC, <- H2; exact Hcb2|]. cbv zeta. rewrite <- EM. auto 8.
    Qed.
    Theorem cms_complete buf c c1 c2 g1 g2 :
      let m := content_info (signed_data p v (signed p info g1) (signer_info p v sidt g2)) in
      cb (SDBuffer (enc info)) true c = (inl g1, c1) ->
      cb (SDBuffer (enc (signed p info g1))) false c1 = (inl g2, c2) ->
      wide info -> len (enc m) < 65540 -> len (enc m) <= len buf ->
      fst (encode_cms cf crit C cb pk subject md sid (cw_new buf c)) = Ok (len (enc m)).
    Proof.
      intros m Hcb1 Hcb2 W1 HM HL.
      pose proof (runs_cms cf crit C cb pk subject md sid 2 (fcsr cf C cb crit md subject pk) (cw_new buf c)
                    (runs_csr cf C cb crit md subject pk)) as O.
      specialize (O ltac:(unfold max_backtracks; lia) eq_refl eq_refl). unfold outc in O.
      assert (Em : enc (content_info (sdata0 (signed p info g1) g2)) = enc m) by apply content_swap, sdata_swap.
      assert (EM : E (content_info (sdata0 (signed p info g1) g2)) = enc m).
      { rewrite <- Em. apply enc_E. rewrite Em. lia. }
      assert (B0 : 256 <= len (E info)).
      { apply (wide_len 0x30) in W1. apply width3 in W1. change (256 <= len (E (Cons 0x30 (info_items (name_der subject) (subject_public_key_info pk) x)))).
        rewrite <- E_cons, len_tlv, gss_unfold. fold (info_items (name_der subject) (subject_public_key_info pk) x) in W1. lia. }
      assert (S1 : forall a l, In a l -> len (E a) <= len (E (SEQUENCE l))).
      { intros a l Ha. unfold SEQUENCE. rewrite <- E_cons, len_tlv, gss_unfold.
        enough (len (E a) <= len (concat (map E l))) by lia.
        unfold len. enough (length (E a) <= length (concat (map E l)))%nat by lia. apply concat_kid_small, in_map, Ha. }
      assert (B1 : len (E (signed p info g1)) + 8 <= len (E (encap_der (signed p info g1)))).
      { unfold encap_der, SEQUENCE. rewrite <- E_cons, <- two, len_tlv, gss_unfold, len_app. unfold CTX.
        rewrite <- E_cons, <- one, len_tlv, gss_unfold, <- octets_of, len_tlv, gss_unfold.
        change (len (E (OID id_data))) with 11. lia. }
      assert (B2 : len (E (encap_der (signed p info g1))) <= len (E (sdata0 (signed p info g1) g2))).
      { apply S1. right. right. left. reflexivity. }
      assert (B3 : len (E (sdata0 (signed p info g1) g2)) <= len (enc m)).
      { rewrite <- EM. unfold content_info. eapply N.le_trans; [|apply S1; right; left; reflexivity].
        unfold CTX. rewrite <- E_cons, <- one, len_tlv, gss_unfold. lia. }
      assert (B4 : 256 <= len (E (signed p info g1))).
      { apply N.le_trans with (1 := B0). apply S1. left. reflexivity. }
      assert (W2 : wide (signed p info g1)).
      { unfold signed. apply (wide_enc 0x30). apply width_room.
        - cbn [map concat]. rewrite len_app. lia.
        - rewrite <- gss_unfold, <- (len_tlv 0x30), E_cons. change (len (E (signed p info g1)) < 65540). lia. }
      pose proof (fsigned_ok _ true c c1 g1 W1 Hcb1 W2) as Hf.
      assert (Hcms : fcms cf C cb sid (fcsr cf C cb crit md subject pk) c = (Ok (enc m), c2)).
      { unfold fcms, fsd, fcsr. unfold fbind at 1 2. rewrite (rinfo_items crit md subject pk x HK HX).
        fold (info_items (name_der subject) (subject_public_key_info pk) x) in Hf. rewrite Hf.
        unfold fbind. unfold flift at 1. fold info.
        rewrite rencap_done by lia. unfold fsign. rewrite (E_enc (signed p info g1)) by lia. rewrite Hcb2. unfold flift.
        rewrite rcms_done; [rewrite EM; reflexivity|lia|rewrite EM; lia]. }
      apply (fresh_done _ _ _ _ _ _ _ O Hcms HL).
    Qed.
  End Request.
End Whole.
