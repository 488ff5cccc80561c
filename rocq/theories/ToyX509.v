(** ToyX509.v -- the environment of Toy.v with the modelled certificate writer, used
    only to show that hypotheses can be met and for the counterexamples of _refuted
    theorems. *)
From Verif Require Import Base Errors Types StateOps Env Wire Instance Commands X509 X509Cert Lib Spec History Toy Walk Measure Der DerProofs
  X509Spec X509Cmd KeyProofs.
Open Scope N_scope.

Definition xp : platform_ops unit :=
  {| po_certificate_chain := po_certificate_chain toy_platform;
     po_issuer_name := fun buf p => (inl 2, 48 :: 0 :: skipn 2 buf, p);
     po_signer_identifier := fun p => (inl (SubjectKeyIdentifier [1; 2; 3]), p);
     po_issuer_key_identifier := fun buf p => (inl tt, buf, p);
     po_vendor_id := fun p => (inl 1, p);
     po_vendor_sku := fun p => (inl 2, p);
     po_auto_init_locality := fun p => (inl 9, p);
     po_cert_validity := fun p => (inl {| cv_not_before := [50]; cv_not_after := [51] |}, p);
     po_subject_alt_name := fun p => (inr PENotImplemented, p);
     po_ueid := fun p => (inl {| ueid_buf := [1; 2]; ueid_size := 2 |}, p) |}.
Definition xc : crypto_ops toy_c := toy_crypto counting.
Definition xenv : env :=
  {| e_C := toy_c; e_P := unit; e_crypto := xc; e_platform := xp; e_cert := x509_gen toy_cf toy_c unit xc xp |}.
Definition x_exec (cmd : command) (loc : N) : world toy_c unit -> result N * world toy_c unit :=
  exec_command toy_cf toy_c unit xc xp (x509_gen toy_cf toy_c unit xc xp) cmd loc.
Definition x_run (l : list (command * N)) : world toy_c unit :=
  toy_run xenv l (mkWorld (state_new toy_cf all_features 0) toy_c0 tt (repeat 0 1000)).

Lemma x_reachable l : Forall (fun cl => command_wf toy_cf (fst cl) /\ u32 (snd cl)) l -> reachable toy_cf (w_st (x_run l)).
Proof.
  intros F. unfold reachable, x_run. apply (toy_run_history any_env any_command xenv I l []); auto.
  - apply hi_new. reflexivity.
  - intros; exact I.
Qed.
Lemma x_executes w cmd loc : executes toy_cf xenv cmd loc (w_st w) (fst (x_exec cmd loc w)) (w_st (snd (x_exec cmd loc w))).
Proof.
  unfold x_exec. destruct (exec_command toy_cf toy_c unit xc xp (x509_gen toy_cf toy_c unit xc xp) cmd loc w) as [r w'] eqn:E.
  exists (w_c w), (w_p w), (w_out w), (w_c w'), (w_p w'), (w_out w'). destruct w as [s c p o], w' as [s' c' p' o']. exact E.
Qed.
Lemma x_run_app l cmd loc : x_run (l ++ [(cmd, loc)]) = snd (x_exec cmd loc (x_run l)).
Proof. unfold x_run, toy_run. rewrite fold_left_app. reflexivity. Qed.

(** What the theorems ask of the environment. *)
Lemma x_keys_fit : keys_fit toy_cf xc.
Proof. intros c pk c' H. apply (f_equal fst) in H. cbn [fst xc toy_crypto co_signer_public_key] in H. injection H as <-. exact I. Qed.
Lemma x_issuer_der : issuer_der xp.
Proof.
  intros p n b p' H. pose proof (f_equal (fun x => fst (fst x)) H) as E1. pose proof (f_equal (fun x => snd (fst x)) H) as E2.
  cbn [fst snd xp po_issuer_name] in E1, E2. injection E1 as <-. subst b. exists (Cons 48 []). split; [|reflexivity].
  vm_compute. repeat split; discriminate.
Qed.
Lemma x_signer_der : signer_der xp.
Proof. intros p sid p' H. apply (f_equal fst) in H. cbn [fst xp po_signer_identifier] in H. injection H as <-. exact I. Qed.

Definition toy_Hf (b : bytes) : digest := DSha256 (toy_hash b).
Definition toy_pub (d : digest) (l k x : bytes) : pubkey :=
  let key := toy_hash (toy_hash (digest_bytes d ++ l) ++ k ++ x) in PkEcdsa256 key key.
Definition toy_ver (pk : pubkey) (m : sign_data) (g : signature) : Prop :=
  exists key, pk = PkEcdsa256 key key /\ g = SigEcdsa256 key key.
Lemma toy_absorbs rand c l c' : absorbs (toy_crypto rand) c l c' -> tc_acc c' = tc_acc c ++ concat l.
Proof.
  induction 1 as [c|c b l c1 c2 H H' IH]; [symmetry; apply app_nil_r|].
  rewrite IH. apply (f_equal snd) in H. cbn [snd toy_crypto co_hash_update] in H. subst c1. cbn [tc_acc concat]. rewrite <- app_assoc. reflexivity.
Qed.
Lemma toy_faithful rand : faithful (toy_crypto rand) toy_Hf toy_pub toy_ver.
Proof.
  split.
  - intros c c0 c1 c2 c3 l d _ H1 H2 H3. apply toy_absorbs in H2.
    apply (f_equal snd) in H1. cbn [snd toy_crypto co_hash_initialize] in H1. subst c1. cbn [tc_acc app] in H2.
    apply (f_equal fst) in H3. cbn [fst toy_crypto co_hash_finish] in H3. rewrite H2 in H3. unfold toy_Hf. congruence.
  - intros c c1 c2 c3 d l k x pk H1 H2 H3.
    apply (f_equal snd) in H1, H2. apply (f_equal fst) in H3. cbn [fst snd toy_crypto co_derive_cdi co_derive_key_pair co_signer_public_key] in *.
    subst c1 c2. cbn [tc_key tc_cdi] in H3. unfold toy_pub. congruence.
  - intros c c1 c2 c3 d l k x m g H1 H2 H3.
    apply (f_equal snd) in H1, H2. apply (f_equal fst) in H3. cbn [fst snd toy_crypto co_derive_cdi co_derive_key_pair co_signer_sign] in *.
    subst c1 c2. cbn [tc_key tc_cdi] in H3. eexists. split; [reflexivity|]. congruence.
Qed.
Lemma toy_steady : steady xp 1 2 toy_chain.
Proof.
  split; [intros p v p' H; apply (f_equal fst) in H; cbn in H; congruence..|].
  intros p l p' H. inversion H as [? ? ? e b q E|? ? ? n b q chunks p2 E Hn Ho H2]; subst.
  { apply (f_equal (fun x => fst (fst x))) in E. vm_compute in E. discriminate. }
  pose proof (f_equal (fun x => fst (fst x)) E) as E1. pose proof (f_equal (fun x => snd (fst x)) E) as E2.
  change (fst (fst (po_certificate_chain xp 0 2048 (repeat 0 2048) p))) with (@inl N platform_error 5) in E1.
  change (snd (fst (po_certificate_chain xp 0 2048 (repeat 0 2048) p))) with (toy_chain ++ skipn 5 (repeat 0 2048)) in E2.
  cbn [fst snd] in E1, E2. injection E1 as <-. subst b. clear E H.
  change (0 + 5 mod 2 ^ 32) with 5 in H2.
  inversion H2 as [? ? ? e b2 q2 E|? ? ? n b2 q2 chunks2 p3 E _ _ _]; subst.
  - vm_compute. reflexivity.
  - apply (f_equal (fun x => fst (fst x))) in E. cbn [xp po_certificate_chain toy_platform] in E.
    change (N.of_nat (length toy_chain) <=? 5) with true in E. discriminate.
Qed.
