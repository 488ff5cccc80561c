(** Props_Calls.v -- C51: the calls commands make to the crypto back end. *)
From Verif Require Import Base Errors Types StateOps Env Wire Instance Commands X509 X509Cert RustCrypto DefaultPlatform Lib Spec Exec Steps X509Cmd Trace TraceCmds TraceRust
  Response Fits RustProofs Toy Props_Commands Props_Reference.
Open Scope N_scope.

(** The calls of a command are those permitted to it, in the order the interface demands.
    If it succeeds, all its calls succeeded and nothing is left open. If it fails, the
    last call failed with its error, or all calls succeeded. *)
Theorem C51_calls :
  forall cf C P (co : crypto_ops C) (po : platform_ops P) cmd loc w r w',
    exec_command cf C P co po (x509_gen cf C P co po) cmd loc w = (r, w') ->
    exists t sg, performs co (w_c w) t (w_c w') /\ Forall (permitted cf cmd) t /\ orderly stage0 t sg /\
      match r with
      | Ok _ => clean t /\ complete cmd sg
      | Err e => ends co t sg e (w_st w')
      | Crash _ => clean t
      end.
Proof. intros cf C P co po cmd loc w r w' H. exact (command_traced cf co po cmd loc _ _ _ H). Qed.
Print Assumptions C51_calls.

(** ** The same with a back end that writes down its calls *)

(** Every call is noted at the end of the log. *)
Definition noted {C A} (f : C -> (A + crypto_error) * C) (x : A + crypto_error -> event) (c : C * list event) : (A + crypto_error) * (C * list event) :=
  let (r, c') := f (fst c) in (r, (c', snd c ++ [x r])).
Definition logging {C} (co : crypto_ops C) : crypto_ops (C * list event) :=
  {| co_rand_bytes := fun n => noted (co_rand_bytes co n) (EvRand n);
     co_hasher := noted (co_hasher co) EvHasher;
     co_hash_initialize := noted (co_hash_initialize co) EvInitialize;
     co_hash_update := fun b => noted (co_hash_update co b) (EvUpdate b);
     co_hash_finish := noted (co_hash_finish co) EvFinish;
     co_derive_cdi := fun d i => noted (co_derive_cdi co d i) (EvCdi d i);
     co_derive_key_pair := fun l i => noted (co_derive_key_pair co l i) (EvKey l i);
     co_signer_sign := fun m => noted (co_signer_sign co m) (EvSign m);
     co_signer_public_key := noted (co_signer_public_key co) EvPublic;
     co_derive_exported_cdi := fun d i => noted (co_derive_exported_cdi co d i) (EvExported d i);
     co_derive_key_pair_exported := fun h l i => noted (co_derive_key_pair_exported co h l i) (EvKeyExported h l i);
     co_sign_with_alias := fun m => noted (co_sign_with_alias co m) (EvAlias m);
     co_digest_algorithm := fun c => co_digest_algorithm co (fst c);
     co_signature_algorithm := fun c => co_signature_algorithm co (fst c) |}.

Lemma logging_makes {C} (co : crypto_ops C) x c c' : makes (logging co) x c c' -> makes co x (fst c) (fst c') /\ snd c' = snd c ++ [x].
Proof.
  destruct x; cbn [makes logging co_rand_bytes co_hasher co_hash_initialize co_hash_update co_hash_finish co_derive_cdi co_derive_key_pair
    co_signer_sign co_signer_public_key co_derive_exported_cdi co_derive_key_pair_exported co_sign_with_alias]; unfold noted;
    match goal with |- context [let (_, _) := ?y in _] => destruct y as [? ?] eqn:? end; intros H; injection H as <- <-; auto.
Qed.
Lemma logging_performs {C} (co : crypto_ops C) c t c' : performs (logging co) c t c' -> performs co (fst c) t (fst c') /\ snd c' = snd c ++ t.
Proof.
  induction 1 as [c|x t c c1 c2 H _ [IH1 IH2]]; [split; [constructor|symmetry; apply app_nil_r]|].
  apply logging_makes in H as [H1 H2]. split; [econstructor; eassumption|]. rewrite IH2, H2, <- app_assoc. reflexivity.
Qed.

(** The log of a command is made of calls of the back end, and obeys all rules. *)
Theorem C51_logged :
  forall cf C P (co : crypto_ops C) (po : platform_ops P) cmd loc w r w',
    exec_command cf _ P (logging co) po (x509_gen cf _ P (logging co) po) cmd loc w = (r, w') ->
    exists t sg, snd (w_c w') = snd (w_c w) ++ t /\ performs co (fst (w_c w)) t (fst (w_c w')) /\
      Forall (permitted cf cmd) t /\ orderly stage0 t sg /\
      match r with
      | Ok _ => clean t /\ complete cmd sg
      | Err e => ends (logging co) t sg e (w_st w')
      | Crash _ => clean t
      end.
Proof.
  intros cf C P co po cmd loc w r w' H. destruct (C51_calls _ _ _ _ _ _ _ _ _ _ H) as (t & sg & H1 & H2).
  apply logging_performs in H1 as [H1 H1']. exists t, sg. auto.
Qed.
Print Assumptions C51_logged.

(** ** Consequences *)

(** An error of the back end is never hidden: when a call failed, it was the last one, and
    the command failed with that error. *)
Theorem C51_honest :
  forall cf C P (co : crypto_ops C) (po : platform_ops P) cmd loc w r w',
    exec_command cf C P co po (x509_gen cf C P co po) cmd loc w = (r, w') ->
    exists t, performs co (w_c w) t (w_c w') /\
      forall t1 x t2 e, t = t1 ++ x :: t2 -> event_error x = Some e -> t2 = [] /\ r = Err (CryptoErr e).
Proof.
  intros cf C P co po cmd loc w r w' H. destruct (C51_calls _ _ _ _ _ _ _ _ _ _ H) as (t & sg & H1 & _ & _ & H4).
  exists t. split; [exact H1|]. intros t1 x t2 e -> E.
  assert (N : ~ clean (t1 ++ x :: t2)).
  { intros X. apply Forall_app in X as [_ X]. inversion X; subst. congruence. }
  destruct r as [a|e0|k]; [destruct (N (proj1 H4))| |destruct (N H4)].
  destruct e0 as [|ic| | | | | | | | | | | | | | | | | | | | | | |y|]; cbn [ends] in H4; try (destruct (N H4)).
  - destruct ic; try (destruct (N H4)). destruct (N (proj1 H4)).
  - destruct H4 as [(t0 & z & Eq & K & Ez)|[X _]]; [|destruct (N X)].
    destruct t2 as [|u t2] using rev_ind.
    + apply app_inj_tail in Eq as [-> ->]. split; [reflexivity|]. congruence.
    + exfalso. clear IHt2. change (t1 ++ x :: t2 ++ [u]) with (t1 ++ (x :: t2) ++ [u]) in Eq. rewrite app_assoc in Eq. apply app_inj_tail in Eq as [<- ->].
      apply Forall_app in K as [_ K]. inversion K; subst. congruence.
Qed.
Print Assumptions C51_honest.

(** GetProfile, DestroyContext and GetCertificateChain make no call; InitializeContext for
    the default context and RotateContextHandle to the default handle make none either. *)
Theorem C51_silent :
  forall cf C P (co : crypto_ops C) (po : platform_ops P) cmd loc w r w',
    exec_command cf C P co po (x509_gen cf C P co po) cmd loc w = (r, w') ->
    match cmd with
    | CmdGetProfile | CmdDestroyCtx _ | CmdGetCertificateChain _ _ => True
    | CmdInitCtx f => N.testbit f 31 = false
    | CmdRotateCtx _ f => N.testbit f 31 = true
    | _ => False
    end -> w_c w' = w_c w.
Proof.
  intros cf C P co po cmd loc w r w' H S. destruct (C51_calls _ _ _ _ _ _ _ _ _ _ H) as (t & sg & H1 & H2 & _).
  inversion H2 as [E|x t' X _ E]; subst; [inversion H1; congruence|]. exfalso. clear - X S.
  destruct cmd; try contradiction; destruct x; cbn [permitted] in X; try contradiction; congruence.
Qed.
Print Assumptions C51_silent.

(** At most one signature with the alias key and at most one with a derived key; the
    derived key signs before the alias key. On success, exactly as many as the command
    needs. *)
Definition alias_calls (t : list event) : nat := length (filter (fun x => match x with EvAlias _ _ => true | _ => false end) t).
Definition sign_calls (t : list event) : nat := length (filter (fun x => match x with EvSign _ _ => true | _ => false end) t).
Definition flag (b : bool) : nat := if b then 1%nat else 0%nat.
Lemma orderly_counts s t s' : orderly s t s' -> clean t ->
  (flag (sg_alias s) + alias_calls t = flag (sg_alias s'))%nat /\ (flag (sg_signed s) + sign_calls t = flag (sg_signed s'))%nat.
Proof.
  unfold alias_calls, sign_calls. induction 1 as [s|x t s s1 s2 H _ IH]; intros K; [cbn; lia|].
  inversion K as [|? ? K1 K2]; subst. destruct (IH K2) as [I1 I2].
  inversion H; subst; cbn [filter length sg_alias sg_signed opens note] in *; try (split; assumption).
  - match goal with E : sg_signed s = false |- _ => rewrite E end. match goal with E : sg_alias s = false |- _ => rewrite E end. cbn [flag] in *. lia.
  - match goal with E : sg_alias s = false |- _ => rewrite E end. cbn [flag] in *. lia.
Qed.
Theorem C51_signatures :
  forall cf C P (co : crypto_ops C) (po : platform_ops P) cmd loc w n w',
    exec_command cf C P co po (x509_gen cf C P co po) cmd loc w = (Ok n, w') ->
    exists t, performs co (w_c w) t (w_c w') /\ clean t /\
      alias_calls t = flag (match cmd with CmdCertifyKey _ => true | CmdDeriveContext c => N.testbit (dc_flags c) 23 | _ => false end) /\
      sign_calls t = flag (match cmd with CmdSign _ => true | CmdCertifyKey c => N.eqb (ck_format (certify_inner c)) 1 | _ => false end).
Proof.
  intros cf C P co po cmd loc w n w' H. destruct (C51_calls _ _ _ _ _ _ _ _ _ _ H) as (t & sg & H1 & _ & H3 & K & (_ & S1 & S2)).
  exists t. split; [exact H1|]. split; [exact K|]. destruct (orderly_counts _ _ _ H3 K) as [A1 A2]. cbn [stage0 sg_alias sg_signed flag] in A1, A2.
  rewrite Nat.add_0_l in A1, A2. rewrite A1, A2.
  assert (B : forall b b' : bool, (b = true <-> b' = true) -> flag b = flag b').
  { intros [] [] X; try reflexivity; exfalso; [destruct X as [X _]; discriminate (X eq_refl)|destruct X as [_ X]; discriminate (X eq_refl)]. }
  split; apply B.
  - rewrite S2. destruct cmd; try reflexivity; split; intros; try discriminate; try contradiction; first [exact Logic.I|reflexivity].
  - rewrite S1. destruct cmd; try (split; intros; try discriminate; try contradiction; first [exact Logic.I|reflexivity]). rewrite N.eqb_eq. reflexivity.
Qed.
Print Assumptions C51_signatures.


(** ** The reference crypto back end *)

Lemma public_seen s t s' pk : orderly s t s' -> clean t -> sg_public s = None -> sg_public s' = Some pk -> In (EvPublic (inl pk)) t.
Proof.
  induction 1 as [s|x t s s1 s2 A O IH]; intros K H1 H2; [congruence|]. inversion K as [|? ? K1 K2]; subst.
  destruct (sg_public s1) as [pk1|] eqn:E; [|right; auto].
  assert (pk1 = pk). { rewrite (orderly_public _ _ _ O) in H2 by congruence. congruence. } subst pk1.
  left. inversion A; subst; cbn [sg_public opens note] in E; try congruence.
  destruct r as [x|e]; [|discriminate K1]. f_equal. f_equal. match goal with X : forall _, _ = _ -> _ = _ |- _ => rewrite (X _ eq_refl) end. congruence.
Qed.
Lemma performed {C} (co : crypto_ops C) c t c' x : performs co c t c' -> In x t -> exists a b, makes co x a b.
Proof. induction 1 as [|y t c c1 c2 H _ IH]; intros X; [destruct X|]. destruct X as [->|X]; eauto. Qed.

(** With the reference back end, whose crates do what is expected of them, an error of the
    back end has one of three reasons: the derived secret is not accepted by ECDSA; a CDI
    was exported before; a certificate to be signed is not in the buffer. Hashing, random numbers and CDI handles never fail. *)
Theorem C51_reference :
  forall cf R pr sig dig P (po : platform_ops P) cmd loc w x w',
    @sound R pr sig dig -> sig = profile_alg (prof cf) -> for_profile cf cmd ->
    let co := rust_ops R pr sig dig in
    exec_command cf _ P co po (x509_gen cf _ P co po) cmd loc w = (Err (CryptoErr x), w') ->
    (x = bad_key sig /\ (exists salt ikm info k, pr_kdf pr sig salt ikm info = Some k /\ pr_usable pr sig k = false) /\
      match cmd with CmdSign _ | CmdCertifyKey _ => True | CmdDeriveContext c => N.testbit (dc_flags c) 23 = true | _ => False end) \/
    ((x = CEExportedCdiHandleDuplicateCdi \/ x = CEExportedCdiHandleLimitExceeded) /\ rc_slots (w_c w) <> [] /\
      match cmd with CmdDeriveContext c => N.testbit (dc_flags c) 23 = true | _ => False end) \/
    (x = CESize /\ match cmd with CmdCertifyKey _ => True | CmdDeriveContext c => N.testbit (dc_flags c) 23 = true | _ => False end).
Proof.
  intros cf R pr sig dig P po cmd loc w x w' So Es FP co H.
  apply (command_faults pr sig dig So cf po cmd loc) in H as (t & sg & H1 & H2 & H3 & [(y & Y1 & Y2 & Y3)|(K & pk & Epk & X)]).
  - rewrite Forall_forall in H2. apply H2 in Y1. destruct y; cbn [call_fault] in Y3; try contradiction.
    + assert (NU : unsignable sig m = false).
      { destruct cmd; cbn [permitted] in Y1; try contradiction.
        - destruct m; try contradiction. destruct sig; reflexivity.
        - destruct Y1 as (h & l & Y1). cbn [for_profile] in FP. destruct c; cbn [sign_inputs] in Y1; cbn [sign_profile] in FP; rewrite <- FP in Es; subst sig;
            try (injection Y1 as <- <- <-; reflexivity).
          destruct (N.leb _ _); [injection Y1 as <- <- <-; reflexivity|discriminate]. }
      destruct Y3 as [[-> Y3]|[_ Y3]]; [|congruence]. left. split; [reflexivity|]. split; [exact Y3|].
      destruct cmd; cbn [permitted] in Y1; try contradiction; exact Logic.I.
    + destruct Y3 as [-> Y3]. left. split; [reflexivity|]. split; [exact Y3|].
      destruct cmd; cbn [permitted] in Y1; try contradiction; [exact Y1|exact Logic.I].
    + right. left. destruct Y3 as [Y3 Y4]. split; [exact Y3|]. split; [exact Y4|]. destruct cmd; cbn [permitted] in Y1; try contradiction; apply Y1.
    + exfalso. destruct Y3 as [_ Y3]. destruct cmd; cbn [permitted] in Y1; try contradiction; destruct m; try contradiction; destruct sig; discriminate.
  - pose proof (public_seen _ _ _ _ H3 K eq_refl Epk) as S. rewrite Forall_forall in H2. pose proof (H2 _ S) as S'. right. right.
    destruct X as [->|[-> X]].
    + split; [reflexivity|]. destruct cmd; cbn [permitted] in S'; try contradiction; [exact S'|exact Logic.I].
    + exfalso. destruct (performed _ _ _ _ _ H1 S) as (a & b & M). cbn [makes co co_signer_public_key rust_ops] in M. apply (f_equal fst) in M. cbn [fst] in M.
      unfold key_public in M. destruct sig.
      * destruct (pr_valid256 _ _); [|discriminate]. destruct (pr_point256 _ _). injection M as <-. discriminate.
      * destruct (pr_valid384 _ _); [|discriminate]. destruct (pr_point384 _ _). injection M as <-. discriminate.
      * destruct (Nat.eqb _ _); [|discriminate]. injection M as <-. discriminate.
Qed.
Print Assumptions C51_reference.

(** ** Cases *)

Definition log_exec (cmd : command) (loc : N) (w : world (rust_c N * list event) unit) :=
  exec_command toy_cf _ unit (logging ref_ops) ref_platform (x509_gen toy_cf _ unit (logging ref_ops) ref_platform) cmd loc w.
Definition log_world (l : list (command * N)) : world (rust_c N * list event) unit :=
  fold_left (fun w cl => snd (log_exec (fst cl) (snd cl) w)) l
    (mkWorld (state_new toy_cf all_features 0) (rust_new N 3, []) tt (repeat 0 (N.to_nat 2100))).
(** The calls in short: one number per kind. *)
Definition kind_of (x : event) : N :=
  match x with
  | EvRand _ _ => 1 | EvHasher _ => 2 | EvInitialize _ => 3 | EvUpdate _ _ => 4 | EvFinish _ => 5
  | EvCdi _ _ _ => 6 | EvKey _ _ _ => 7 | EvSign _ _ => 8 | EvPublic _ => 9
  | EvExported _ _ _ => 10 | EvKeyExported _ _ _ _ => 11 | EvAlias _ _ => 12
  end.
Definition kinds (l : list (command * N)) (cmd : command) : list N := map kind_of (snd (w_c (log_world (l ++ [(cmd, 0)])))).
(** Signing hashes the chain, derives the CDI and the key, and signs; a CSR needs the
    public key, hashes it for the name and the key identifier, derives the key again to
    sign, and has the envelope signed by the alias key; a second export fails at once. *)
Example C51_case :
  kinds [(init_default, 0)] (sign H0) = [2; 3; 4; 4; 5; 6; 7; 8] /\
  kinds [(init_default, 0)] (certify H0 1) = [2; 3; 4; 4; 5; 6; 7; 9; 2; 3; 4; 4; 4; 5; 2; 3; 4; 4; 4; 5; 6; 7; 8; 12] /\
  kinds [(init_default, 0)] (CmdDeriveContext ref_export) = [2; 3; 4; 4; 5; 10; 11; 9; 2; 3; 4; 4; 4; 5; 2; 3; 4; 4; 4; 5; 12] /\
  kinds [] (CmdGetCertificateChain 0 2) = [] /\
  fst (log_exec (sign H0) 0 (log_world [(init_default, 0)])) = Ok 92 /\
  fst (log_exec (CmdDeriveContext ref_export) 0 (log_world [(init_default, 0); (CmdDeriveContext ref_export, 0)])) =
    Err (CryptoErr CEExportedCdiHandleDuplicateCdi).
Proof. repeat (apply conj; [vm_compute; reflexivity|]). vm_compute. reflexivity. Qed.
(** The toy primitives do what is expected. *)
Example C51_sound : sound toy_pr AlgEcdsa256 AlgSha256 /\ AlgEcdsa256 = profile_alg (prof toy_cf) /\ for_profile toy_cf (CmdDeriveContext ref_export).
Proof.
  split; [|split; [reflexivity|exact Logic.I]]. split.
  - intros b. apply length_le_bytes.
  - intros. eexists. split; [reflexivity|]. discriminate.
  - discriminate.
  - exists [9]. split; [reflexivity|discriminate].
Qed.
