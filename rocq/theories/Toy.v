(** Toy.v -- a small concrete environment, used only to show that the
    hypotheses of the theorems can be met (the Examples of the Props_*.v files)
    and to exhibit the counterexamples of the _refuted theorems. *)
From Verif Require Import Base Errors Types StateOps Env Wire Instance Commands Lib Spec History.
Open Scope N_scope.

(** Four slots, profile P-256. *)
Definition toy_cf : config :=
  {| max_handles := 4; feat_p256 := true; feat_p384 := false; feat_mldsa := false;
     prof := P256Sha256; fuel := 5 |}.
Lemma toy_cf_ok : config_ok toy_cf.
Proof. unfold config_ok; cbn. repeat split; lia. Qed.

(** A counting random source, a checksum as hash, keys that are hashes. *)
Record toy_c := { tc_n : N; tc_acc : bytes; tc_cdi : bytes; tc_key : bytes }.
Definition toy_hash (l : bytes) : bytes :=
  le_bytes 32 (fold_left (fun h b => (h * 31 + b + 1) mod 2 ^ 32) l 5381).

Definition toy_crypto (rand : N -> bytes + crypto_error) : crypto_ops toy_c :=
  {| co_rand_bytes := fun _ c =>
       (rand (tc_n c), {| tc_n := tc_n c + 1; tc_acc := tc_acc c; tc_cdi := tc_cdi c; tc_key := tc_key c |});
     co_hasher := fun c => (inl tt, c);
     co_hash_initialize := fun c =>
       (inl tt, {| tc_n := tc_n c; tc_acc := []; tc_cdi := tc_cdi c; tc_key := tc_key c |});
     co_hash_update := fun b c =>
       (inl tt, {| tc_n := tc_n c; tc_acc := tc_acc c ++ b; tc_cdi := tc_cdi c; tc_key := tc_key c |});
     co_hash_finish := fun c => (inl (DSha256 (toy_hash (tc_acc c))), c);
     co_derive_cdi := fun d i c =>
       (inl tt, {| tc_n := tc_n c; tc_acc := tc_acc c; tc_cdi := toy_hash (digest_bytes d ++ i); tc_key := tc_key c |});
     co_derive_key_pair := fun l i c =>
       (inl tt, {| tc_n := tc_n c; tc_acc := tc_acc c; tc_cdi := tc_cdi c; tc_key := toy_hash (tc_cdi c ++ l ++ i) |});
     co_signer_sign := fun _ c => (inl (SigEcdsa256 (tc_key c) (tc_key c)), c);
     co_signer_public_key := fun c => (inl (PkEcdsa256 (tc_key c) (tc_key c)), c);
     co_derive_exported_cdi := fun d i c => (inl (toy_hash (digest_bytes d ++ i)), c);
     co_derive_key_pair_exported := fun _ l i c =>
       (inl tt, {| tc_n := tc_n c; tc_acc := tc_acc c; tc_cdi := tc_cdi c; tc_key := toy_hash (tc_cdi c ++ l ++ i) |});
     co_sign_with_alias := fun _ c => (inl (SigEcdsa256 [1] [2]), c);
     co_digest_algorithm := fun _ => AlgSha256;
     co_signature_algorithm := fun _ => AlgEcdsa256 |}.

(** Counts 1, 2, 3, ... and fails when the 16 bytes are exhausted. *)
Definition counting (n : N) : bytes + crypto_error :=
  if n + 1 <? 2 ^ 128 then inl (le_bytes 16 (n + 1)) else inr CENotImplemented.
(** Always the same value. *)
Definition stuck (n : N) : bytes + crypto_error := inl (repeat 7 16).
(** Two good values, then failures. *)
Definition failing_after (k n : N) : bytes + crypto_error :=
  if n <? k then counting n else inr CENotImplemented.

Definition toy_chain : bytes := [48; 3; 2; 1; 5].
Definition toy_platform : platform_ops unit :=
  {| po_certificate_chain := fun off size buf p =>
       if N.of_nat (length toy_chain) <=? off then (inr PECertificateChain, buf, p)
       else let part := firstn (N.to_nat size) (skipn (N.to_nat off) toy_chain) in
            (inl (N.of_nat (length part)), part ++ skipn (length part) buf, p);
     po_issuer_name := fun buf p => (inl 0, buf, p);
     po_signer_identifier := fun p => (inl (SubjectKeyIdentifier []), p);
     po_issuer_key_identifier := fun buf p => (inl tt, buf, p);
     po_vendor_id := fun p => (inl 1, p);
     po_vendor_sku := fun p => (inl 2, p);
     po_auto_init_locality := fun p => (inl 9, p);
     po_cert_validity := fun p => (inl {| cv_not_before := []; cv_not_after := [] |}, p);
     po_subject_alt_name := fun p => (inr PENotImplemented, p);
     po_ueid := fun p => (inl {| ueid_buf := [1; 2]; ueid_size := 2 |}, p) |}.

(** A "certificate" of four bytes. *)
Definition toy_cert (pk : pubkey) (k : cert_kind) (a : cert_args) (off : nat) (s : state) (c : toy_c) (p : unit)
           (out : bytes) : result cert_result * toy_c * unit * bytes :=
  if (off + 4 <=? length out)%nat then
    (Ok {| cr_size := 4; cr_pubkey := pk; cr_exported := repeat 9 32 |},
     c, p, overwrite out off [48; 2; 5; 0])
  else (Err InvalidResponseBuf, c, p, out).

Definition toy_env_with (rand : N -> bytes + crypto_error) (pk : pubkey) : env :=
  {| e_C := toy_c; e_P := unit; e_crypto := toy_crypto rand; e_platform := toy_platform;
     e_cert := toy_cert pk |}.
Definition toy_env : env := toy_env_with counting (PkEcdsa256 [1] [2]).
Definition stuck_env : env := toy_env_with stuck (PkEcdsa256 [1] [2]).

Definition toy_c0 : toy_c := {| tc_n := 0; tc_acc := []; tc_cdi := []; tc_key := [] |}.
Definition toy_buf : bytes := repeat 0 100.

(** Run commands one after the other. *)
Definition toy_run (e : env) (l : list (command * N)) (w : world (e_C e) (e_P e))
  : world (e_C e) (e_P e) :=
  fold_left (fun w cl => snd (exec_command toy_cf (e_C e) (e_P e) (e_crypto e) (e_platform e)
                                           (e_cert e) (fst cl) (snd cl) w)) l w.
Definition all_features : N := 2 ^ 32 - 1.
Definition toy_w0 : world toy_c unit := mkWorld (state_new toy_cf all_features 0) toy_c0 tt toy_buf.
Definition toy_state_with (rand : N -> bytes + crypto_error) (l : list (command * N)) : state :=
  w_st (toy_run (toy_env_with rand (PkEcdsa256 [1] [2])) l toy_w0).
Definition toy_state := toy_state_with counting.

(** Every state obtained by running well-formed commands is reachable. *)
Lemma toy_run_history (E : env -> Prop) (G : state -> command -> N -> Prop) e :
  E e -> forall l h w, history toy_cf E G h (w_st w) ->
  Forall (fun cl => command_wf toy_cf (fst cl) /\ u32 (snd cl)) l ->
  (forall l1 cl l2, l = l1 ++ cl :: l2 -> G (w_st (toy_run e l1 w)) (fst cl) (snd cl)) ->
  exists h', history toy_cf E G h' (w_st (toy_run e l w)).
Proof.
  intros He. induction l as [|[cmd loc] l IH]; intros h w H F HG.
  - exists h. exact H.
  - inversion F as [|? ? [F1 F2] F3]; subst. cbn [toy_run fold_left fst snd].
    destruct (exec_command toy_cf (e_C e) (e_P e) (e_crypto e) (e_platform e) (e_cert e) cmd loc w)
      as [r w1] eqn:EX.
    destruct (IH (EvCommand cmd loc r :: h) w1) as (h' & Hh').
    + eapply hi_command; eauto.
      * exact (HG [] (cmd, loc) l eq_refl).
      * destruct w as [s c p o], w1 as [s1 c1 p1 o1]. exists c, p, o, c1, p1, o1. exact EX.
    + exact F3.
    + intros l1 cl l2 El. specialize (HG ((cmd, loc) :: l1) cl l2). cbn [app] in HG. rewrite El in HG.
      specialize (HG eq_refl). unfold toy_run in HG. cbn [fold_left fst snd] in HG. rewrite EX in HG. exact HG.
    + exists h'. cbn [snd]. exact Hh'.
Qed.

Lemma toy_reachable rand l :
  Forall (fun cl => command_wf toy_cf (fst cl) /\ u32 (snd cl)) l ->
  reachable toy_cf (toy_state_with rand l).
Proof.
  intros F. unfold reachable, toy_state_with.
  apply (toy_run_history any_env any_command _ I l []); auto.
  - apply hi_new. reflexivity.
  - intros; exact I.
Qed.

(** The counting source never repeats itself. *)
Lemma toy_no_repeat : no_repeat (toy_crypto counting).
Proof.
  exists (fun c v => exists k, k < tc_n c /\ k + 1 < 2 ^ 128 /\ v = le_bytes 16 (k + 1)).
  intros c r c' H. cbn [co_rand_bytes toy_crypto] in H. inversion H; subst; clear H. cbn [tc_n]. split.
  - intros v (k & H1 & H2 & H3). exists k. repeat split; auto. lia.
  - intros b Hb. unfold counting in Hb.
    destruct (N.ltb_spec (tc_n c + 1) (2 ^ 128)) as [L|L]; [|discriminate].
    assert (Eb : b = le_bytes 16 (tc_n c + 1)) by congruence. rewrite Eb.
    rewrite to_buf_id by (apply length_le_bytes || apply all_bytes_le_bytes).
    split.
    + intros (k & H1 & H2 & H3). apply (f_equal le_val) in H3.
      change (2 ^ 128) with (256 ^ N.of_nat 16) in *.
      rewrite !le_val_le_bytes in H3 by assumption. lia.
    + exists (tc_n c). repeat split; [lia|exact L].
Qed.

(** The result of a command after others, and what it proves. *)
Definition toy_result (rand : N -> bytes + crypto_error) (l : list (command * N)) (cmd : command) (loc : N)
  : result N :=
  fst (exec_command toy_cf toy_c unit (toy_crypto rand) toy_platform (toy_cert (PkEcdsa256 [1] [2])) cmd loc
                    (toy_run (toy_env_with rand (PkEcdsa256 [1] [2])) l toy_w0)).
Lemma toy_executes rand l cmd loc :
  executes toy_cf (toy_env_with rand (PkEcdsa256 [1] [2])) cmd loc (toy_state_with rand l)
           (toy_result rand l cmd loc) (toy_state_with rand (l ++ [(cmd, loc)])).
Proof.
  unfold toy_state_with, toy_result. set (e := toy_env_with rand (PkEcdsa256 [1] [2])).
  assert (K : toy_run e (l ++ [(cmd, loc)]) toy_w0 =
              snd (exec_command toy_cf (e_C e) (e_P e) (e_crypto e) (e_platform e) (e_cert e) cmd loc
                                (toy_run e l toy_w0))).
  { unfold toy_run. rewrite fold_left_app. reflexivity. }
  rewrite K. clear K. generalize (toy_run e l toy_w0). intros w.
  change (exec_command toy_cf toy_c unit (toy_crypto rand) toy_platform (toy_cert (PkEcdsa256 [1] [2])))
    with (exec_command toy_cf (e_C e) (e_P e) (e_crypto e) (e_platform e) (e_cert e)).
  destruct (exec_command toy_cf (e_C e) (e_P e) (e_crypto e) (e_platform e) (e_cert e) cmd loc w) as [r w'] eqn:E.
  exists (w_c w), (w_p w), (w_out w), (w_c w'), (w_p w'), (w_out w').
  destruct w as [s c p o], w' as [s' c' p' o']. exact E.
Qed.
Lemma toy_history (E : env -> Prop) (G : state -> command -> N -> Prop) rand l :
  E (toy_env_with rand (PkEcdsa256 [1] [2])) ->
  Forall (fun cl => command_wf toy_cf (fst cl) /\ u32 (snd cl)) l ->
  (forall l1 cl l2, l = l1 ++ cl :: l2 -> G (toy_state_with rand l1) (fst cl) (snd cl)) ->
  exists h, history toy_cf E G h (toy_state_with rand l).
Proof.
  intros He F HG. unfold toy_state_with in *.
  apply (toy_run_history E G _ He l [] toy_w0); auto. apply hi_new. reflexivity.
Qed.

(** Commands used in the examples. *)
Definition H0 : bytes := repeat 0 16.
Definition Hn (n : N) : bytes := le_bytes 16 n.
Definition data (b : N) : bytes := repeat b 32.
Definition init_default : command := CmdInitCtx (2 ^ 30).
Definition init_simulation : command := CmdInitCtx (2 ^ 31).
Definition derive (h : bytes) (flags ty : N) : command :=
  CmdDeriveContext {| dc_handle := h; dc_data := data ty; dc_flags := flags; dc_tci_type := ty;
                      dc_target_locality := 0; dc_svn := 1 |}.
Definition derive_to (h : bytes) (flags ty target : N) : command :=
  CmdDeriveContext {| dc_handle := h; dc_data := data ty; dc_flags := flags; dc_tci_type := ty;
                      dc_target_locality := target; dc_svn := 1 |}.
Definition update (h : bytes) (ty : N) : command :=
  CmdUpdateContextMeasurement {| uc_parent_handle := h; uc_data := data 200; uc_reserved := 0;
                                 uc_tci_type := ty; uc_reserved_svn := 0 |}.
Definition sign (h : bytes) : command :=
  CmdSign (SignP256 {| sg_handle := h; sg_label := data 3; sg_flags := 0; sg_digest := data 4 |}).
Definition certify (h : bytes) (format : N) : command :=
  CmdCertifyKey (CertifyP256 {| ck_handle := h; ck_flags := 0; ck_format := format; ck_label := data 3 |}).

Ltac toy_wf :=
  repeat (apply Forall_cons; [split; [vm_compute; repeat split; auto 20; repeat constructor|reflexivity]|]);
  apply Forall_nil.
