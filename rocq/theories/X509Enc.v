(** X509Enc.v -- what the certificate, CSR and CMS encoders of X509.v write. *)
From Verif Require Import Base Errors Types StateOps Env Lib Der DerProofs X509 X509Run X509Spec X509Bytes.
Open Scope N_scope.

Lemma rbind_assoc {A B D} (m : result A) (f : A -> result B) (g : B -> result D) :
  rbind (rbind m f) g = rbind m (fun a => rbind (f a) g).
Proof. destruct m; reflexivity. Qed.

(** ** Generators that do not touch the crypto state *)

Lemma ok_inj {A} (x y : A) : Ok x = Ok y -> x = y.
Proof. intros H. injection H as ->. reflexivity. Qed.

Section Lift.
  Variable C : Type.
  Definition flift (r : result bytes) : gen C := fun c => (r, c).
  Definition rapp (a b : result bytes) : result bytes := rbind a (fun x => rbind b (fun y => Ok (x ++ y))).

  Lemma fseq_lift a b c : fseq (flift a) (flift b) c = flift (rapp a b) c.
  Proof. destruct a, b; reflexivity. Qed.
  Lemma fold_ext l : forall (f g : gen C), (forall c, f c = g c) ->
    forall c, fold_left fseq l f c = fold_left fseq l g c.
  Proof.
    induction l as [|x l IH]; intros f g H c; cbn [fold_left]; [apply H|].
    apply IH. intros c0. unfold fseq, fbind. rewrite H. reflexivity.
  Qed.
  Lemma fcat_lift l : forall a c,
    fold_left fseq (map flift l) (flift a) c = flift (fold_left rapp l a) c.
  Proof.
    induction l as [|b l IH]; intros a c; [reflexivity|]. cbn [map fold_left].
    rewrite (fold_ext _ _ (flift (rapp a b))) by (intros; apply fseq_lift). apply IH.
  Qed.

  Lemma runs_seq_lift ms rs :
    Forall2 (fun m r => runs false 0 m (flift r)) ms rs ->
    runs false 0 (seq_of ms) (flift (fold_left rapp rs (Ok []))).
  Proof.
    intros H. eapply runs_feq; [|apply (runs_seq C 0 ms (map flift rs))].
    - intros c. exact (fcat_lift rs (Ok []) c).
    - induction H; constructor; assumption.
  Qed.

  Lemma pure_lift m bs : pure m bs -> runs false 0 m (flift (Ok bs)).
  Proof. apply pure_runs. Qed.

  Lemma runs_lift_result (r : result N) (m : N -> W C N) (g : N -> result bytes) :
    (forall n, r = Ok n -> runs false 0 (m n) (flift (g n))) ->
    runs false 0 (wbind (wlift r) m) (flift (rbind r g)).
  Proof.
    intros H. destruct r as [n|e|k]; cbn [rbind].
    - intros w Hs Hb. exact (H n eq_refl w Hs Hb).
    - intros w Hs Hb. unfold outc. cbn. eapply OutErr; [reflexivity|apply keeps_refl|reflexivity].
    - intros w Hs Hb. unfold outc. cbn. eapply OutCrash; [reflexivity|apply keeps_refl|reflexivity].
  Qed.
End Lift.
Arguments flift {C} _ _.

(** ** The measurement chain *)

Section Chain.
  Variable cf : config.
  Variable crit : bool.
  Variable C : Type.
  Variable md : measurement_data.
  Let p := prof cf.

  (** The nodes as the loop of encode_multi_tcb_info meets them. *)
  Definition collect : result (list context) :=
    rbind (nodes_iter cf md) (fun it => iter_collect cf true (fuel cf) (md_contexts md) it).
  (** The size declared for them. *)
  Definition declared : result N :=
    rbind (nodes_empty cf md) (fun e =>
      if e then Err (InternalError EmptyTciNodes)
      else
        rbind (nodes_num cf md) (fun n =>
        rbind (nodes_first cf md) (fun o =>
        rbind (ok_or o (InternalError EmptyTciNodes)) (fun t =>
          Ok (n * get_tcb_info_size cf t (md_recursive md) true))))).
  Definition infos (cts : list context) : bytes :=
    concat (map (fun c => E (tcb_der cf (md_recursive md) (c_tci c))) cts).

  Lemma multi_size tagged : get_multi_tcb_info_size cf crit md tagged =
    rbind declared (fun D => Ok (get_extension_size oid_multi_tcb crit (gss D) tagged)).
  Proof.
    unfold get_multi_tcb_info_size, declared. destruct (nodes_empty cf md) as [[]|e|k]; cbn [rbind]; try reflexivity.
    destruct (nodes_num cf md); cbn [rbind]; try reflexivity.
    destruct (nodes_first cf md) as [[]| |]; reflexivity.
  Qed.

  Lemma runs_nodes n l : forall it,
    runs false 0 (encode_nodes cf C n l it (md_recursive md))
         (flift (rbind (iter_collect cf true n l it) (fun cts => Ok (infos cts)))).
  Proof.
    induction n as [|n IH]; intros it; cbn [encode_nodes iter_collect].
    - intros w Hs Hb. unfold outc. cbn. eapply OutCrash; [reflexivity|apply keeps_refl|reflexivity].
    - destruct (iter_next_back cf l it) as [[[c|e|k]|] it'].
      + eapply runs_feq; [|eapply runs_add; [apply (pure_lift C), pure_tcb|apply IH]].
        intros c0. rewrite fseq_lift. unfold flift, rapp. cbn [rbind].
        destruct (iter_collect cf true n l it'); reflexivity.
      + intros w Hs Hb. unfold outc. cbn. eapply OutErr; [reflexivity|apply keeps_refl|reflexivity].
      + intros w Hs Hb. unfold outc. cbn. eapply OutCrash; [reflexivity|apply keeps_refl|reflexivity].
      + apply (pure_lift C), pure_ret.
  Qed.

  Definition multi_raw (D : N) (I : bytes) : bytes :=
    ext_head oid_multi_tcb crit (gss D) ++ 0x30 :: code_len D ++ I.

  Definition written_infos : result N :=
    rbind (nodes_empty cf md) (fun e =>
      if negb e then
        rbind (nodes_first cf md) (fun o =>
        rbind (ok_or o (InternalError EmptyTciNodes)) (fun t =>
        rbind (nodes_num cf md) (fun n => Ok (get_tcb_info_size cf t (md_recursive md) true * n))))
      else Ok 0).
  Lemma written_declared D : declared = Ok D -> written_infos = Ok D.
  Proof.
    unfold declared, written_infos. destruct (nodes_empty cf md) as [[]|e|k]; cbn [rbind negb]; try discriminate.
    destruct (nodes_num cf md) as [n| |]; cbn [rbind]; try discriminate.
    destruct (nodes_first cf md) as [[t|]| |]; cbn [rbind ok_or]; try discriminate.
    intros H. apply ok_inj in H. rewrite <- H. f_equal. apply N.mul_comm.
  Qed.

  Lemma runs_multi : runs false 0 (encode_multi_tcb_info cf crit C md)
    (flift (rbind written_infos (fun D => rbind collect (fun cts => Ok (multi_raw D (infos cts)))))).
  Proof.
    unfold encode_multi_tcb_info. fold written_infos. apply runs_lift_result. intros D _.
    eapply runs_feq; [|eapply runs_add].
    2: { apply (pure_lift C). eapply pure_seq.
         constructor; [change (critical_dice crit) with (crit_val crit); apply pure_ext_head|].
         constructor; [apply pure_byte|]. constructor; [apply pure_size|constructor]. }
    2: { unfold collect in *.
         instantiate (1 := flift (rbind (rbind (nodes_iter cf md) (fun it => iter_collect cf true (fuel cf) (md_contexts md) it))
                                        (fun cts => Ok (infos cts)))).
         rewrite rbind_assoc. 
         destruct (nodes_iter cf md) as [it|e|k]; cbn [rbind].
         - intros w Hs Hb. exact (runs_nodes (fuel cf) (md_contexts md) it w Hs Hb).
         - intros w Hs Hb. unfold outc. cbn. eapply OutErr; [reflexivity|apply keeps_refl|reflexivity].
         - intros w Hs Hb. unfold outc. cbn. eapply OutCrash; [reflexivity|apply keeps_refl|reflexivity]. }
    intros c. rewrite fseq_lift. fold collect. unfold flift, rapp. cbn [rbind].
    destruct collect as [cts| |]; cbn [rbind]; try reflexivity.
    do 2 f_equal. unfold multi_raw. cbn [concat app]. rewrite app_nil_r, <- app_assoc. reflexivity.
  Qed.

  (** All extensions, with the declared size [D] of the list of TcbInfos. *)
  Definition exts_len (x509 : bool) (D : N) : N :=
    get_extension_size oid_multi_tcb crit (gss D) true + len (others crit md x509).
  Definition exts_raw (x509 : bool) (D : N) (I : bytes) : bytes :=
    0x30 :: code_len (exts_len x509 D) ++ multi_raw D I ++ others crit md x509.
  Definition exts_field (x509 : bool) (D : N) (I : bytes) : bytes :=
    (if x509 then 0xA3 :: code_len (gss (exts_len x509 D)) else []) ++ exts_raw x509 D I.

  Lemma ext_size tagged explicit x509 : get_extensions_size cf crit md tagged explicit x509 =
    rbind declared (fun D => Ok (get_structure_size (get_structure_size (exts_len x509 D) explicit) tagged)).
  Proof.
    unfold get_extensions_size. rewrite multi_size. destruct declared as [D| |]; cbn [rbind]; try reflexivity.
    unfold exts_len. rewrite len_others. do 3 f_equal. lia.
  Qed.

  Definition rexts (x509 : bool) : result bytes :=
    rbind declared (fun D => rbind collect (fun cts => Ok (exts_field x509 D (infos cts)))).

  Lemma runs_size_of r : runs false 0 (encode_size_of C r) (flift (rbind r (fun n => Ok (code_len n)))).
  Proof.
    apply runs_lift_result. intros n _. apply (pure_lift C), pure_size.
  Qed.

  Ltac item t := apply Forall2_cons; [t|].
  Ltac pitem1 l := item ltac:(apply (pure_lift C); exact l).
  Ltac exts_items x509 :=
    item ltac:(apply runs_multi); pitem1 (pure_ueid crit C md); pitem1 (pure_bc C md);
    pitem1 (pure_ku C md); pitem1 (pure_eku C md); pitem1 (pure_ski C md x509);
    pitem1 (pure_aki C md x509); pitem1 (pure_san C md); apply Forall2_nil.

  Lemma runs_exts x509 : runs false 0 (encode_extensions cf crit C md x509) (flift (rexts x509)).
  Proof.
    unfold encode_extensions. rewrite !ext_size. unfold rexts.
    destruct x509.
    - eapply runs_feq; [|apply runs_seq_lift; cbn [app]; item ltac:(apply (pure_lift C), pure_byte);
        item ltac:(apply runs_size_of); item ltac:(apply (pure_lift C), pure_byte);
        item ltac:(apply runs_size_of); exts_items true]. intros c. unfold flift.
      cbn [fold_left]. destruct declared as [D| |] eqn:ED; cbn [rbind rapp]; try reflexivity.
      rewrite (written_declared D ED). destruct collect as [cts| |]; cbn [rbind rapp]; try reflexivity.
      do 2 f_equal. unfold exts_field, exts_raw. rewrite others_eq.
      cbn [app]. rewrite !gss_false, <- ?app_assoc. cbn [app]. rewrite <- ?app_assoc. reflexivity.
    - eapply runs_feq; [|apply runs_seq_lift; cbn [app]; item ltac:(apply (pure_lift C), pure_byte);
        item ltac:(apply runs_size_of); exts_items false]. intros c. unfold flift.
      cbn [fold_left]. destruct declared as [D| |] eqn:ED; cbn [rbind rapp]; try reflexivity.
      rewrite (written_declared D ED). destruct collect as [cts| |]; cbn [rbind rapp]; try reflexivity.
      do 2 f_equal. unfold exts_field, exts_raw. rewrite others_eq.
      cbn [app]. rewrite !gss_false, <- ?app_assoc. cbn [app]. rewrite <- ?app_assoc. reflexivity.
  Qed.

  (** The attributes of a certification request. *)
  Definition attr_len (D : N) : N := gss (len oid_ext_request) + gss (gss (exts_len false D)).
  Definition attrs_raw (D : N) (I : bytes) : bytes :=
    0xA0 :: code_len (gss (attr_len D)) ++ 0x30 :: code_len (attr_len D)
         ++ tlv code_len 6 oid_ext_request ++ 0x31 :: code_len (gss (exts_len false D)) ++ exts_raw false D I.
  Definition rattrs : result bytes :=
    rbind declared (fun D => rbind collect (fun cts => Ok (attrs_raw D (infos cts)))).

  Lemma attribute_size tagged : get_attribute_size cf crit md tagged =
    rbind declared (fun D => Ok (get_structure_size (attr_len D) tagged)).
  Proof.
    unfold get_attribute_size. rewrite ext_size. destruct declared; reflexivity.
  Qed.
  Lemma attributes_size tagged : get_attributes_size cf crit md tagged =
    rbind declared (fun D => Ok (get_structure_size (gss (attr_len D)) tagged)).
  Proof.
    unfold get_attributes_size. rewrite attribute_size. destruct declared; reflexivity.
  Qed.

  Lemma runs_attrs : runs false 0 (encode_attributes cf crit C md) (flift rattrs).
  Proof.
    unfold encode_attributes. rewrite attributes_size, attribute_size, ext_size. unfold rattrs.
    eapply runs_feq; [|apply runs_seq_lift].
    2: { item ltac:(apply (pure_lift C), pure_byte); item ltac:(apply runs_size_of);
         item ltac:(apply (pure_lift C), pure_tag); item ltac:(apply runs_size_of);
         item ltac:(apply (pure_lift C), pure_oid); item ltac:(apply (pure_lift C), pure_tag);
         item ltac:(apply runs_size_of); item ltac:(apply runs_exts); apply Forall2_nil. }
    intros c. unfold flift, rexts. cbn [fold_left].
    destruct declared as [D| |] eqn:ED; cbn [rbind rapp]; try reflexivity.
    destruct collect as [cts| |]; cbn [rbind rapp]; try reflexivity.
    do 2 f_equal. unfold attrs_raw, exts_field, exts_raw.
    cbn [app]. rewrite !gss_false, <- ?app_assoc. cbn [app]. rewrite <- ?app_assoc. reflexivity.
  Qed.

  (** With the right declared size these are DER values. *)
  Lemma infos_der cts : (forall c, In c cts -> tci_svn (c_tci c) < 2 ^ 32) ->
    infos cts = concat (map E (map (fun c => tcb_info p (md_recursive md) (c_tci c)) cts)).
  Proof.
    intros H. unfold infos. rewrite map_map. f_equal. apply map_ext_in. intros c Hc.
    rewrite tcb_spec by auto. reflexivity.
  Qed.

  Lemma multi_raw_der ts : multi_raw (len (concat (map E ts))) (concat (map E ts))
    = E (ext_multi_tcb_info crit ts).
  Proof.
    unfold multi_raw, ext_multi_tcb_info. rewrite <- ext_head_spec. oid_consts.
    unfold SEQUENCE. cbn [enc_with]. rewrite len_tlv. reflexivity.
  Qed.
  Lemma len_multi ts : len (E (ext_multi_tcb_info crit ts))
    = get_extension_size oid_multi_tcb crit (gss (len (concat (map E ts)))) true.
  Proof.
    unfold ext_multi_tcb_info. rewrite len_extension. oid_consts. unfold SEQUENCE. cbn [enc_with].
    rewrite len_tlv. reflexivity.
  Qed.
  Lemma exts_raw_der x509 ts : exts_raw x509 (len (concat (map E ts))) (concat (map E ts))
    = E (extensions x509 (xd crit md) ts).
  Proof.
    unfold exts_raw, extensions, SEQUENCE. rewrite multi_raw_der. cbn [enc_with map concat xd xd_critical].
    rewrite tlv_unfold. unfold exts_len. rewrite len_app, len_multi. reflexivity.
  Qed.
  Lemma len_exts x509 ts : len (E (extensions x509 (xd crit md) ts)) = gss (exts_len x509 (len (concat (map E ts)))).
  Proof.
    unfold extensions, SEQUENCE. cbn [enc_with map concat xd xd_critical]. rewrite len_tlv, len_app, len_multi.
    reflexivity.
  Qed.
  Lemma exts_field_der ts : exts_field true (len (concat (map E ts))) (concat (map E ts))
    = E (CTX 3 [extensions true (xd crit md) ts]).
  Proof.
    unfold exts_field. rewrite exts_raw_der. unfold CTX. cbn [enc_with map concat]. rewrite app_nil_r, tlv_unfold.
    rewrite len_exts. reflexivity.
  Qed.
  Lemma attrs_raw_der ts : attrs_raw (len (concat (map E ts))) (concat (map E ts))
    = E (CTX 0 [SEQUENCE [OID id_extensionRequest; SET [extensions false (xd crit md) ts]]]).
  Proof.
    unfold attrs_raw. rewrite exts_raw_der. unfold attr_len. rewrite <- len_exts.
    generalize (extensions false (xd crit md) ts) as e. intros e.
    unfold CTX, SEQUENCE, SET, OID. oid_consts. bnorm. beq.
  Qed.
End Chain.
