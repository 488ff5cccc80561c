(** Trace.v -- the calls a command makes to the crypto back end: their order, their
    arguments, and what a failing call leads to. *)
From Verif Require Import Base Errors Types StateOps Env Wire Instance Commands X509 X509Cert Lib Spec Exec Steps.
Open Scope N_scope.
Open Scope dpe_scope.

(** ** Specification *)

(** One call, with its arguments and its answer. *)
Inductive event :=
| EvRand (n : nat) (r : bytes + crypto_error)
| EvHasher (r : unit + crypto_error)
| EvInitialize (r : unit + crypto_error)
| EvUpdate (b : bytes) (r : unit + crypto_error)
| EvFinish (r : digest + crypto_error)
| EvCdi (d : digest) (info : bytes) (r : unit + crypto_error)
| EvKey (label info : bytes) (r : unit + crypto_error)
| EvSign (m : sign_data) (r : signature + crypto_error)
| EvPublic (r : pubkey + crypto_error)
| EvExported (d : digest) (info : bytes) (r : bytes + crypto_error)
| EvKeyExported (h label info : bytes) (r : unit + crypto_error)
| EvAlias (m : sign_data) (r : signature + crypto_error).

(** The back end [co] makes this call in state [c] and is then in state [c']. *)
Definition makes {C} (co : crypto_ops C) (x : event) (c c' : C) : Prop :=
  match x with
  | EvRand n r => co_rand_bytes co n c = (r, c')
  | EvHasher r => co_hasher co c = (r, c')
  | EvInitialize r => co_hash_initialize co c = (r, c')
  | EvUpdate b r => co_hash_update co b c = (r, c')
  | EvFinish r => co_hash_finish co c = (r, c')
  | EvCdi d i r => co_derive_cdi co d i c = (r, c')
  | EvKey l i r => co_derive_key_pair co l i c = (r, c')
  | EvSign m r => co_signer_sign co m c = (r, c')
  | EvPublic r => co_signer_public_key co c = (r, c')
  | EvExported d i r => co_derive_exported_cdi co d i c = (r, c')
  | EvKeyExported h l i r => co_derive_key_pair_exported co h l i c = (r, c')
  | EvAlias m r => co_sign_with_alias co m c = (r, c')
  end.
Inductive performs {C} (co : crypto_ops C) : C -> list event -> C -> Prop :=
| pf_nil c : performs co c [] c
| pf_cons x t c c1 c2 : makes co x c c1 -> performs co c1 t c2 -> performs co c (x :: t) c2.

(** The error a call answered with. *)
Definition event_error (x : event) : option crypto_error :=
  let err A (r : A + crypto_error) := match r with inl _ => None | inr e => Some e end in
  match x with
  | EvRand _ r | EvExported _ _ r => err _ r
  | EvHasher r | EvInitialize r | EvUpdate _ r | EvCdi _ _ r | EvKey _ _ r | EvKeyExported _ _ _ r => err _ r
  | EvFinish r => err _ r
  | EvSign _ r | EvAlias _ r => err _ r
  | EvPublic r => err _ r
  end.
(** All calls succeeded. *)
Definition clean (t : list event) : Prop := Forall (fun x => event_error x = None) t.
(** The last call failed with [e], the others succeeded. *)
Definition broken (t : list event) (e : crypto_error) : Prop :=
  exists t0 x, t = t0 ++ [x] /\ clean t0 /\ event_error x = Some e.

(** *** The order of calls

    What the last call left open: a hash object, an open hash, a CDI, an exported CDI, a
    key pair. *)
Inductive open_object := ONone | OHasher | OHash | OCdi | OExported (h : bytes) | OKey.
Record stage := mkStage {
  sg_open : open_object;
  (** the first digest of the command *)
  sg_digest : option digest;
  (** signatures made with a derived key and with the alias key *)
  sg_signed : bool;
  sg_alias : bool;
  (** the public key the back end gave *)
  sg_public : option pubkey
}.
Definition stage0 : stage := mkStage ONone None false false None.
Definition opens (o : open_object) (s : stage) : stage := mkStage o (sg_digest s) (sg_signed s) (sg_alias s) (sg_public s).
(** The first digest of the command stays. *)
Definition note (d : digest) (s : stage) : stage :=
  mkStage ONone (match sg_digest s with Some x => Some x | None => Some d end) (sg_signed s) (sg_alias s) (sg_public s).

(** The calls allowed in a stage and the stage behind them. A failing call ends the
    command, so the stage behind it does not matter. *)
Inductive allowed : stage -> event -> stage -> Prop :=
(** Handles are drawn while nothing is open. *)
| al_rand s r : sg_open s = ONone -> allowed s (EvRand 16 r) s
(** A hash is started, filled and finished without other calls in between. *)
| al_hasher s r : sg_open s = ONone -> allowed s (EvHasher r) (opens OHasher s)
| al_initialize s r : sg_open s = OHasher -> allowed s (EvInitialize r) (opens OHash s)
| al_update s b r : sg_open s = OHash -> allowed s (EvUpdate b r) s
| al_finish s r d : sg_open s = OHash -> (forall x, r = inl x -> x = d) -> allowed s (EvFinish r) (note d s)
(** A CDI is derived from the first digest; a key pair directly behind the CDI; the key
    pair is used once, directly behind that. The public key is asked for once, and no
    CDI is exported after that. *)
| al_cdi s d i r : sg_open s = ONone -> sg_digest s = Some d -> allowed s (EvCdi d i r) (opens OCdi s)
| al_key s l i r : sg_open s = OCdi -> allowed s (EvKey l i r) (opens OKey s)
| al_exported s d i r h : sg_open s = ONone -> sg_digest s = Some d -> sg_public s = None -> (forall x, r = inl x -> h = to_buf 32 x) ->
    allowed s (EvExported d i r) (opens (OExported h) s)
| al_key_exported s h l i r : sg_open s = OExported h -> allowed s (EvKeyExported h l i r) (opens OKey s)
| al_public s r pk : sg_open s = OKey -> sg_public s = None -> (forall x, r = inl x -> x = pk) ->
    allowed s (EvPublic r) (mkStage ONone (sg_digest s) (sg_signed s) (sg_alias s) (Some pk))
(** One signature with a derived key and one with the alias key, in this order. *)
| al_sign s m r : sg_open s = OKey -> sg_signed s = false -> sg_alias s = false ->
    allowed s (EvSign m r) (mkStage ONone (sg_digest s) true false (sg_public s))
| al_alias s m r : sg_open s = ONone -> sg_alias s = false ->
    allowed s (EvAlias m r) (mkStage ONone (sg_digest s) (sg_signed s) true (sg_public s)).
Inductive orderly : stage -> list event -> stage -> Prop :=
| or_nil s : orderly s [] s
| or_cons x t s s1 s2 : allowed s x s1 -> orderly s1 t s2 -> orderly s (x :: t) s2.

(** *** The calls each command may make *)

Definition hashing (x : event) : Prop :=
  match x with EvHasher _ | EvInitialize _ | EvUpdate _ _ | EvFinish _ => True | _ => False end.
(** ["DPE"], ["Exported CDI"], ["Exported ECC"] and ["Exported ML-DSA"]; the context of
    key derivation is the name of the algorithm.  Bit 23 is EXPORT_CDI, bit 31
    SIMULATION (InitializeContext) or TARGET_IS_DEFAULT (RotateContextHandle). *)
Definition permitted (cf : config) (cmd : command) (x : event) : Prop :=
  match cmd, x with
  | CmdInitCtx f, EvRand _ _ => N.testbit f 31 = true
  | CmdRotateCtx _ f, EvRand _ _ => N.testbit f 31 = false
  | CmdUpdateContextMeasurement _, (EvRand _ _ | EvHasher _ | EvInitialize _ | EvUpdate _ _ | EvFinish _) => True
  | CmdDeriveContext _, (EvRand _ _ | EvHasher _ | EvInitialize _ | EvUpdate _ _ | EvFinish _) => True
  | CmdDeriveContext c, EvExported _ i _ => N.testbit (dc_flags c) 23 = true /\ i = str_exported_cdi
  | CmdDeriveContext c, EvKeyExported _ l i _ =>
      N.testbit (dc_flags c) 23 = true /\ l = exported_label (prof cf) /\ i = exported_label (prof cf)
  | CmdDeriveContext c, EvPublic _ => N.testbit (dc_flags c) 23 = true
  | CmdDeriveContext c, EvAlias (SDBuffer _) _ => N.testbit (dc_flags c) 23 = true
  | CmdCertifyKey _, (EvRand _ _ | EvHasher _ | EvInitialize _ | EvUpdate _ _ | EvFinish _ | EvPublic _) => True
  | CmdCertifyKey _, EvCdi _ i _ => i = str_DPE
  | CmdCertifyKey c, EvKey l i _ => l = ck_label (certify_inner c) /\ i = key_context (prof cf)
  | CmdCertifyKey _, EvAlias (SDBuffer _) _ => True
  | CmdCertifyKey c, EvSign (SDBuffer _) _ => ck_format (certify_inner c) = 1
  | CmdSign _, (EvRand _ _ | EvHasher _ | EvInitialize _ | EvUpdate _ _ | EvFinish _) => True
  | CmdSign _, EvCdi _ i _ => i = str_DPE
  | CmdSign c, EvKey l i _ => (exists h d, sign_inputs c = Ok (h, l, d)) /\ i = key_context (prof cf)
  | CmdSign c, EvSign m _ => exists h l, sign_inputs c = Ok (h, l, m)
  | _, _ => False
  end.

(** A command that succeeded left nothing open; it signed with a derived key exactly if
    it is Sign or asks for a CSR, and with the alias key exactly if it made a certificate
    or a CSR. *)
Definition complete (cmd : command) (sg : stage) : Prop :=
  sg_open sg = ONone /\
  (sg_signed sg = true <-> match cmd with CmdSign _ => True | CmdCertifyKey c => ck_format (certify_inner c) = 1 | _ => False end) /\
  (sg_alias sg = true <-> match cmd with CmdCertifyKey _ => True | CmdDeriveContext c => N.testbit (dc_flags c) 23 = true | _ => False end).

(** *** What failing calls lead to *)

(** Eight draws in a row that cannot be used: zero, or the handle of a slot. *)
Definition unusable (s : state) (b : bytes) : Prop :=
  to_buf 16 b = repeat 0 16 \/ exists c, In c (st_contexts s) /\ c_handle c = to_buf 16 b.
Definition exhausted (s : state) (t : list event) : Prop :=
  exists t0 bs, t = t0 ++ map (fun b => EvRand 16 (inl b)) bs /\ length bs = 8%nat /\ Forall (unusable s) bs.

(** Calls up to stage [sg] and the error [e] in state [s]: an error of the back end comes from the last
    call, unless it is one of the two that dpe itself answers: a public key that is not
    of the algorithm, or a certificate to be signed that is not in the response buffer.
    With any other error all calls succeeded. *)
Definition ends {C} (co : crypto_ops C) (t : list event) (sg : stage) (e : dpe_error) (s : state) : Prop :=
  match e with
  | CryptoErr x =>
      broken t x \/
      clean t /\ exists pk, sg_public sg = Some pk /\
                  (x = CESize \/
                   x = CEMismatchedAlgorithm /\ exists c, alg_matches (co_signature_algorithm co c) pk = false)
  | InternalError HandleGenerationExhausted => clean t /\ exhausted s t
  | _ => clean t
  end.

(** ** The proof method *)

(** Results without errors that tell about calls. *)
Definition calm {A} (r : result A) : Prop :=
  forall e, r = Err e -> (forall x, e <> CryptoErr x) /\ e <> InternalError HandleGenerationExhausted.
Definition calm_error (e : dpe_error) : bool :=
  match e with CryptoErr _ | InternalError HandleGenerationExhausted => false | _ => true end.

Lemma calm_ok {A} (a : A) : calm (Ok a).
Proof. intros e H. discriminate. Qed.
Lemma calm_crash {A} k : calm (@Crash A k).
Proof. intros e H. discriminate. Qed.
Lemma calm_err {A} e : calm_error e = true -> calm (@Err A e).
Proof. intros H e0 E. injection E as <-. split; intros; intros ->; discriminate. Qed.
Lemma calm_bind {A B} (m : result A) (f : A -> result B) : calm m -> (forall a, calm (f a)) -> calm (rbind m f).
Proof. intros Hm Hf. destruct m as [a|e|k]; cbn [rbind]; [apply Hf| |apply calm_crash]. intros x E. injection E as <-. exact (Hm _ eq_refl). Qed.
Lemma calm_ok_or {A} (o : option A) e : calm_error e = true -> calm (ok_or o e).
Proof. intros H. destruct o; [apply calm_ok|apply calm_err, H]. Qed.
Lemma calm_index {A} (o : option A) : calm (index_or_crash o).
Proof. destruct o; [apply calm_ok|apply calm_crash]. Qed.
Ltac calm_step :=
  lazymatch goal with
  | |- calm (Ok _) => apply calm_ok
  | |- calm (Err _) => apply calm_err; reflexivity
  | |- calm (Crash _) => apply calm_crash
  | |- calm (rbind _ _) => apply calm_bind; [|intros]
  | |- calm (ok_or _ _) => apply calm_ok_or; reflexivity
  | |- calm (index_or_crash _) => apply calm_index
  | |- calm (match ?x with _ => _ end) => destruct x
  | |- calm (let _ := _ in _) => cbv zeta
  end.
Ltac calm_auto := repeat calm_step.

Section Pure.
  Variable cf : config.
  Lemma calm_pos s h l : calm (get_active_context_pos s h l).
  Proof. unfold get_active_context_pos, get_active_context_pos_internal. calm_auto. Qed.
  Lemma calm_and_idx s h l : calm (get_active_context_and_idx s h l).
  Proof. unfold get_active_context_and_idx. calm_auto. apply calm_pos. Qed.
  Lemma calm_get_context l i : calm (iter_get_context cf l i).
  Proof. unfold iter_get_context. calm_auto. Qed.
  Lemma calm_new_loop n l : forall i k, calm (iter_new_loop cf n l i k).
  Proof. induction n as [|n IH]; intros; cbn [iter_new_loop]; calm_auto; [apply calm_get_context|apply IH]. Qed.
  Lemma calm_new i l : calm (iter_new cf i l).
  Proof. unfold iter_new. calm_auto. apply calm_new_loop. Qed.
  Lemma calm_next l it r it' : iter_next cf l it = (Some r, it') -> calm r.
  Proof.
    unfold iter_next. pose proof (calm_get_context l (it_front it)) as G.
    destruct (it_done it); [discriminate|]. destruct (Nat.leb _ _); [discriminate|]. destruct (Nat.leb _ _); [intros E; injection E as <- _; calm_auto|].
    destruct (iter_get_context cf l (it_front it)) as [c|e|k].
    - repeat match goal with |- context [if ?b then _ else _] => destruct b end; intros E; injection E as <- _; calm_auto.
    - intros E. injection E as <- _. exact G.
    - intros E. injection E as <- _. calm_auto.
  Qed.
  Lemma calm_unique s l t : calm (tci_type_unique s l t).
  Proof. induction l as [|i l IH]; cbn [tci_type_unique]; calm_auto. exact IH. Qed.
  Lemma calm_children_add n i : calm (children_add cf n i).
  Proof. unfold children_add. calm_auto. Qed.
  Lemma calm_add_child c i : calm (ctx_add_child cf c i).
  Proof. unfold ctx_add_child. calm_auto. apply calm_children_add. Qed.
  Lemma calm_retired n s : forall p a, calm (collect_retired cf n s p a).
  Proof. induction n as [|n IH]; intros; cbn [collect_retired]; calm_auto; [apply calm_children_add|apply IH]. Qed.
  Lemma calm_fold {A B} (f : result A -> B -> result A) l :
    (forall acc b, calm acc -> calm (f acc b)) -> forall acc, calm acc -> calm (fold_left f l acc).
  Proof. intros H. induction l as [|b l IH]; intros acc Ha; cbn [fold_left]; [exact Ha|]. apply IH, H, Ha. Qed.
  Lemma calm_descendants n s : forall c, calm (get_descendants cf n s c).
  Proof.
    induction n as [|n IH]; intros c; cbn [get_descendants]; calm_auto.
    apply calm_fold; [|apply calm_ok]. intros acc b Ha. calm_auto; [exact Ha|apply IH].
  Qed.
  Lemma calm_destroy h s l : calm (destroy_context cf h s l).
  Proof.
    unfold destroy_context. apply calm_bind; [apply calm_and_idx|]. intros [c i].
    calm_auto; [apply calm_retired|apply calm_descendants|apply calm_children_add].
  Qed.
  Lemma calm_inputs c : calm (sign_inputs c).
  Proof. unfold sign_inputs. calm_auto. Qed.
  Lemma calm_count n l : forall it, calm (iter_count cf n l it).
  Proof. induction n as [|n IH]; intros; cbn [iter_count]; calm_auto; apply IH. Qed.
  Lemma calm_nodes i l : calm (tci_nodes_new cf i l).
  Proof. unfold tci_nodes_new. calm_auto; [apply calm_new|apply calm_count]. Qed.
  Lemma calm_u32 n c : c <> HandleGenerationExhausted -> calm (to_u32 n c).
  Proof. intros H. unfold to_u32. destruct (N.ltb _ _); [apply calm_ok|]. apply calm_err. destruct c; try reflexivity. contradiction. Qed.
  Lemma calm_hex d k : (48 <= k)%nat -> calm (write_hex_str d (repeat 0 (k * 2))).
  Proof.
    intros H. unfold write_hex_str. cbv zeta. destruct (Nat.ltb_spec (length (repeat 0 (k * 2))) (length (digest_bytes d) * 2)) as [L|_]; [exfalso|calm_auto].
    rewrite repeat_length in L. destruct d; cbn [digest_bytes] in L; rewrite length_to_buf in L; lia.
  Qed.
End Pure.

Section Engine.
  Context {C P : Type}.
  Variable co : crypto_ops C.
  (** The calls that are permitted. *)
  Variable may : event -> Prop.
  Notation world := (world C P).

  Lemma performs_app c1 t1 c2 t2 c3 : performs co c1 t1 c2 -> performs co c2 t2 c3 -> performs co c1 (t1 ++ t2) c3.
  Proof. induction 1 as [c|x t c c' c'' H H' IH]; cbn [app]; [auto|]. intros X. econstructor; [exact H|auto]. Qed.
  Lemma orderly_app s1 t1 s2 t2 s3 : orderly s1 t1 s2 -> orderly s2 t2 s3 -> orderly s1 (t1 ++ t2) s3.
  Proof. induction 1 as [s|x t s s' s'' H H' IH]; cbn [app]; [auto|]. intros X. econstructor; [exact H|auto]. Qed.
  Lemma clean_app t1 t2 : clean t1 -> clean t2 -> clean (t1 ++ t2).
  Proof. intros. apply Forall_app. auto. Qed.
  Lemma broken_app t1 t2 e : clean t1 -> broken t2 e -> broken (t1 ++ t2) e.
  Proof. intros H (t & x & -> & H1 & H2). exists (t1 ++ t), x. rewrite app_assoc. split; [reflexivity|]. split; [apply clean_app; auto|exact H2]. Qed.
  Lemma ends_app t1 t2 sg e s : clean t1 -> ends co t2 sg e s -> ends co (t1 ++ t2) sg e s.
  Proof.
    intros H. assert (K : clean t2 -> clean (t1 ++ t2)) by (intros; apply clean_app; auto).
    destruct e as [|c| | | | | | | | | | | | | | | | | | | | | | |x|]; cbn [ends]; auto.
    - destruct c; auto. intros [A (t & bs & -> & B)]. split; [auto|]. exists (t1 ++ t), bs. rewrite app_assoc. auto.
    - intros [B|[B D]]; [left; apply broken_app; auto|right; auto].
  Qed.
  Lemma ends_calm {A} t sg e s : calm (@Err A e) -> clean t -> ends co t sg e s.
  Proof.
    intros H K. destruct (H e eq_refl) as [H1 H2].
    destruct e as [|c| | | | | | | | | | | | | | | | | | | | | | |x|]; cbn [ends]; auto.
    - destruct c; auto. congruence.
    - destruct (H1 x eq_refl).
  Qed.

  (** From stage [s] on, the calls of [m] are permitted and orderly, and its result fits
      to them; a value and the stage behind it satisfy [Q]. *)
  Definition traced {A} (s : stage) (m : M C P A) (Q : A -> stage -> Prop) : Prop :=
    forall w r w', m w = (r, w') ->
      exists t s', performs co (w_c w) t (w_c w') /\ Forall may t /\ orderly s t s' /\
        match r with
        | Ok a => clean t /\ Q a s'
        | Err e => ends co t s' e (w_st w')
        | Crash _ => clean t
        end.
  Definition traced_c {A} (s : stage) (f : C -> (A + crypto_error) * C) (Q : A -> stage -> Prop) : Prop :=
    forall c r c', f c = (r, c') ->
      exists t s', performs co c t c' /\ Forall may t /\ orderly s t s' /\
        match r with inl a => clean t /\ Q a s' | inr e => broken t e end.

  Lemma traced_weaken {A} s (m : M C P A) (Q Q' : A -> stage -> Prop) :
    traced s m Q -> (forall a s', Q a s' -> Q' a s') -> traced s m Q'.
  Proof.
    intros H K w r w' E. destruct (H _ _ _ E) as (t & s' & H1 & H2 & H3 & H4). exists t, s'. split; [exact H1|]. split; [exact H2|]. split; [exact H3|].
    destruct r; [|exact H4..]. destruct H4. auto.
  Qed.
  Lemma traced_bind {A B} s (m : M C P A) (f : A -> M C P B) Q Q' :
    traced s m Q -> (forall a s', Q a s' -> traced s' (f a) Q') -> traced s (bind m f) Q'.
  Proof.
    intros Hm Hf w r w' H. apply bind_inv in H as [(a & w1 & E & H)|[(e & E & ->)|(k & E & ->)]].
    - destruct (Hm _ _ _ E) as (t1 & s1 & A1 & A2 & A3 & A4 & A5). destruct (Hf _ _ A5 _ _ _ H) as (t2 & s2 & B1 & B2 & B3 & B4).
      exists (t1 ++ t2), s2. split; [eapply performs_app; eassumption|]. split; [apply Forall_app; auto|].
      split; [eapply orderly_app; eassumption|].
      destruct r; [destruct B4; split; [apply clean_app|]; auto|apply ends_app; auto|apply clean_app; auto].
    - destruct (Hm _ _ _ E) as (t1 & s1 & A1 & A2 & A3 & A4). exists t1, s1. auto.
    - destruct (Hm _ _ _ E) as (t1 & s1 & A1 & A2 & A3 & A4). exists t1, s1. auto.
  Qed.
  (** Without calls. *)
  Lemma traced_same {A} s (m : M C P A) (Q : A -> stage -> Prop) :
    (forall w, w_c (snd (m w)) = w_c w /\ calm (fst (m w)) /\ forall a, fst (m w) = Ok a -> Q a s) -> traced s m Q.
  Proof.
    intros H w r w' E. specialize (H w). rewrite E in H. cbn [fst snd] in H. destruct H as (H1 & H2 & H3).
    exists [], s. rewrite H1. split; [constructor|]. split; [constructor|]. split; [constructor|].
    destruct r as [a|e|k]; [split; [constructor|auto]| |constructor]. eapply ends_calm; [exact H2|constructor].
  Qed.
  Lemma traced_ret {A} s (a : A) (Q : A -> stage -> Prop) : Q a s -> traced s (ret a) Q.
  Proof. intros H. apply traced_same. intros w. split; [reflexivity|]. split; [apply calm_ok|]. intros x E. injection E as <-. exact H. Qed.
  Lemma traced_fail {A} s e (Q : A -> stage -> Prop) : calm_error e = true -> traced s (fail e) Q.
  Proof. intros H. apply traced_same. intros w. split; [reflexivity|]. split; [apply calm_err, H|]. intros x E. discriminate. Qed.
  Lemma traced_lift {A} s (x : result A) (Q : A -> stage -> Prop) : calm x -> (forall a, x = Ok a -> Q a s) -> traced s (lift x) Q.
  Proof. intros H K. apply traced_same. intros w. auto. Qed.
  Definition stays {A} (s : stage) : A -> stage -> Prop := fun _ s' => s' = s.
  Lemma traced_lift' {A} s (x : result A) : calm x -> traced s (lift x) (fun a s' => x = Ok a /\ s' = s).
  Proof. intros H. apply traced_lift; auto. Qed.
  Lemma traced_get s : traced s get_st (stays s).
  Proof. apply traced_same. intros w. split; [reflexivity|]. split; [apply calm_ok|]. reflexivity. Qed.
  Lemma traced_put s x : traced s (put_st x) (stays s).
  Proof. apply traced_same. intros w. split; [reflexivity|]. split; [apply calm_ok|]. reflexivity. Qed.
  Lemma traced_write s o b : traced s (write_out o b) (stays s).
  Proof. apply traced_same. intros w. unfold write_out. destruct (Nat.leb _ _); (split; [reflexivity|]; split; [cbn [fst]; calm_auto|reflexivity]). Qed.
  Lemma traced_platform {A} s (f : P -> (A + platform_error) * P) : traced s (platform f) (stays s).
  Proof.
    apply traced_same. intros w. unfold platform. destruct (f (w_p w)) as [[a|e] p]; (split; [reflexivity|]; split; [cbn [fst]; calm_auto|reflexivity]).
  Qed.
  Lemma traced_get_ctx s i e : calm_error e = true -> traced s (st_get C P i e) (stays s).
  Proof. intros H. unfold st_get. eapply traced_bind; [apply traced_get|]. intros x s' ->. apply traced_lift; [apply calm_ok_or, H|reflexivity]. Qed.
  Lemma traced_index s i : traced s (st_index C P i) (stays s).
  Proof. unfold st_index. eapply traced_bind; [apply traced_get|]. intros x s' ->. apply traced_lift; [apply calm_index|reflexivity]. Qed.
  Lemma traced_set s i c e : calm_error e = true -> traced s (st_set C P i c e) (stays s).
  Proof.
    intros H. unfold st_set. eapply traced_bind; [apply traced_get|]. intros x s' ->. destruct (Nat.ltb _ _); [apply traced_put|apply traced_fail, H].
  Qed.
  Lemma traced_assign s i c : traced s (st_assign C P i c) (stays s).
  Proof.
    unfold st_assign. eapply traced_bind; [apply traced_get|]. intros x s' ->. destruct (Nat.ltb _ _); [apply traced_put|].
    apply traced_lift; [apply calm_crash|discriminate].
  Qed.
  Lemma traced_respond s b : traced s (respond C P b) (stays s).
  Proof. unfold respond. eapply traced_bind; [apply traced_write|]. intros x s' ->. apply traced_ret. reflexivity. Qed.
  Lemma traced_crypto {A} s (f : C -> (A + crypto_error) * C) Q : traced_c s f Q -> traced s (crypto f) Q.
  Proof.
    intros H w r w' E. unfold crypto in E. destruct (f (w_c w)) as [[a|e] c] eqn:Ef; injection E as <- <-;
      destruct (H _ _ _ Ef) as (t & s' & H1 & H2 & H3 & H4); exists t, s'; cbn [w_c ends]; auto.
  Qed.
  Lemma traced_seq {A B} s (m : C -> (A + crypto_error) * C) (f : A -> C -> (B + crypto_error) * C) Q Q' :
    traced_c s m Q -> (forall a s', Q a s' -> traced_c s' (f a) Q') -> traced_c s (cseq C m f) Q'.
  Proof.
    intros Hm Hf c r c' E. unfold cseq in E. destruct (m c) as [[a|e] c1] eqn:Em.
    - destruct (Hm _ _ _ Em) as (t1 & s1 & A1 & A2 & A3 & A4 & A5). destruct (Hf _ _ A5 _ _ _ E) as (t2 & s2 & B1 & B2 & B3 & B4).
      exists (t1 ++ t2), s2. split; [eapply performs_app; eassumption|]. split; [apply Forall_app; auto|].
      split; [eapply orderly_app; eassumption|]. destruct r; [destruct B4; split; [apply clean_app|]; auto|apply broken_app; auto].
    - injection E as <- <-. destruct (Hm _ _ _ Em) as (t1 & s1 & A1 & A2 & A3 & A4). exists t1, s1. auto.
  Qed.
  (** One call. *)
  Lemma traced_one {A} s (f : C -> (A + crypto_error) * C) (x : A + crypto_error -> event) (s1 : A + crypto_error -> stage) (Q : A -> stage -> Prop) :
    (forall c r c', f c = (r, c') -> makes co (x r) c c') -> (forall r, may (x r)) ->
    (forall r, event_error (x r) = match r with inl _ => None | inr e => Some e end) ->
    (forall r, allowed s (x r) (s1 r)) -> (forall a, Q a (s1 (inl a))) -> traced_c s f Q.
  Proof.
    intros H1 H2 H3 H4 H5 c r c' E. exists [x r], (s1 r). split; [econstructor; [apply H1, E|constructor]|].
    split; [repeat constructor; apply H2|]. split; [econstructor; [apply H4|constructor]|].
    pose proof (H3 r) as K. destruct r as [a|e].
    - split; [repeat constructor; exact K|apply H5].
    - exists [], (x (inr e)). split; [reflexivity|]. split; [constructor|exact K].
  Qed.

  Definition may_hash : Prop := forall x, hashing x -> may x.
  Definition may_rand : Prop := forall r, may (EvRand 16 r).

  Lemma c_rand s : may_rand -> sg_open s = ONone -> traced_c s (co_rand_bytes co 16) (stays s).
  Proof. intros H O. apply (traced_one s _ (EvRand 16) (fun _ => s)); auto; try reflexivity. intros r. apply al_rand, O. Qed.
  Lemma c_hasher s : may_hash -> sg_open s = ONone -> traced_c s (co_hasher co) (stays (opens OHasher s)).
  Proof.
    intros H O. apply (traced_one s _ EvHasher (fun _ => opens OHasher s)); auto; try reflexivity. intros r. apply H, Logic.I.
    intros r. apply al_hasher, O.
  Qed.
  Lemma c_initialize s : may_hash -> sg_open s = OHasher -> traced_c s (co_hash_initialize co) (stays (opens OHash s)).
  Proof.
    intros H O. apply (traced_one s _ EvInitialize (fun _ => opens OHash s)); auto; try reflexivity. intros r. apply H, Logic.I.
    intros r. apply al_initialize, O.
  Qed.
  Lemma c_update s b : may_hash -> sg_open s = OHash -> traced_c s (co_hash_update co b) (stays s).
  Proof.
    intros H O. apply (traced_one s _ (EvUpdate b) (fun _ => s)); auto; try reflexivity. intros r. apply H, Logic.I.
    intros r. apply al_update, O.
  Qed.
  Lemma c_finish s : may_hash -> sg_open s = OHash -> traced_c s (co_hash_finish co) (fun d s' => s' = note d s).
  Proof.
    intros H O. apply (traced_one s _ EvFinish (fun r => note (match r with inl d => d | inr _ => DSha256 [] end) s)); auto; try reflexivity. intros r. apply H, Logic.I.
    intros r. apply al_finish; [exact O|]. intros x ->. reflexivity.
  Qed.
  Lemma c_cdi s d i : (forall r, may (EvCdi d i r)) -> sg_open s = ONone -> sg_digest s = Some d ->
    traced_c s (co_derive_cdi co d i) (stays (opens OCdi s)).
  Proof. intros H O D. apply (traced_one s _ (EvCdi d i) (fun _ => opens OCdi s)); auto; try reflexivity. intros r. apply al_cdi; auto. Qed.
  Lemma c_key s l i : (forall r, may (EvKey l i r)) -> sg_open s = OCdi -> traced_c s (co_derive_key_pair co l i) (stays (opens OKey s)).
  Proof. intros H O. apply (traced_one s _ (EvKey l i) (fun _ => opens OKey s)); auto; try reflexivity. intros r. apply al_key; auto. Qed.
  Lemma c_public s : (forall r, may (EvPublic r)) -> sg_open s = OKey -> sg_public s = None ->
    traced_c s (co_signer_public_key co) (fun pk s' => s' = mkStage ONone (sg_digest s) (sg_signed s) (sg_alias s) (Some pk)).
  Proof.
    intros H O O'. apply (traced_one s _ EvPublic (fun r => mkStage ONone (sg_digest s) (sg_signed s) (sg_alias s)
      (Some match r with inl pk => pk | inr _ => PkMldsa [] end))); auto; try reflexivity.
    intros r. apply al_public; [exact O|exact O'|]. intros x ->. reflexivity.
  Qed.
  Lemma c_sign s m : (forall r, may (EvSign m r)) -> sg_open s = OKey -> sg_signed s = false -> sg_alias s = false ->
    traced_c s (co_signer_sign co m) (stays (mkStage ONone (sg_digest s) true false (sg_public s))).
  Proof.
    intros H O S1 S2. apply (traced_one s _ (EvSign m) (fun _ => mkStage ONone (sg_digest s) true false (sg_public s))); auto; try reflexivity.
    intros r. apply al_sign; auto.
  Qed.
  Lemma c_alias s m : (forall r, may (EvAlias m r)) -> sg_open s = ONone -> sg_alias s = false ->
    traced_c s (co_sign_with_alias co m) (stays (mkStage ONone (sg_digest s) (sg_signed s) true (sg_public s))).
  Proof.
    intros H O S2. apply (traced_one s _ (EvAlias m) (fun _ => mkStage ONone (sg_digest s) (sg_signed s) true (sg_public s))); auto; try reflexivity.
    intros r. apply al_alias; auto.
  Qed.
  Lemma c_exported s d i : (forall r, may (EvExported d i r)) -> sg_open s = ONone -> sg_digest s = Some d -> sg_public s = None ->
    traced_c s (co_derive_exported_cdi co d i) (fun h s' => s' = opens (OExported (to_buf 32 h)) s).
  Proof.
    intros H O D D'. apply (traced_one s _ (EvExported d i) (fun r => opens (OExported (match r with inl h => to_buf 32 h | inr _ => [] end)) s)); auto; try reflexivity.
    intros r. apply al_exported; auto. intros x ->. reflexivity.
  Qed.
  Lemma c_key_exported s h l i : (forall r, may (EvKeyExported h l i r)) -> sg_open s = OExported h ->
    traced_c s (co_derive_key_pair_exported co h l i) (stays (opens OKey s)).
  Proof. intros H O. apply (traced_one s _ (EvKeyExported h l i) (fun _ => opens OKey s)); auto; try reflexivity. intros r. apply al_key_exported; auto. Qed.
End Engine.

(** ** The writer *)

Section Writer.
  Variable cf : config.
  Variable crit : bool.
  Context {C : Type}.

  (** No calls. *)
  Definition wcalm {A} (m : W C A) : Prop := forall w, cw_c C (snd (m w)) = cw_c C w /\ calm (fst (m w)).
  Lemma wcalm_bind {A B} (m : W C A) (f : A -> W C B) : wcalm m -> (forall a, wcalm (f a)) -> wcalm (wbind C m f).
  Proof.
    intros Hm Hf w. destruct (Hm w) as [H1 H2]. unfold wbind. destruct (m w) as [[a|e|k] w1]; cbn [fst snd] in *.
    - destruct (Hf a w1) as [K1 K2]. split; [congruence|exact K2].
    - split; [exact H1|]. intros x E. injection E as <-. exact (H2 _ eq_refl).
    - split; [exact H1|apply calm_crash].
  Qed.
  Lemma wcalm_ret {A} (a : A) : wcalm (wret C a).
  Proof. intros w. split; [reflexivity|apply calm_ok]. Qed.
  Lemma wcalm_lift {A} (r : result A) : calm r -> wcalm (wlift C r).
  Proof. intros H w. split; [reflexivity|exact H]. Qed.
  Lemma wcalm_seq l : Forall wcalm l -> wcalm (seq_of C l).
  Proof.
    unfold seq_of. assert (K : forall l m, wcalm m -> Forall wcalm l -> wcalm (fold_left (wadd C) l m)).
    { clear l. induction l as [|x l IH]; intros m Hm F; cbn [fold_left]; [exact Hm|]. inversion F as [|? ? F1 F2]; subst.
      apply IH; [|exact F2]. apply wcalm_bind; [exact Hm|]. intros a. apply wcalm_bind; [exact F1|]. intros b. apply wcalm_ret. }
    intros F. apply K; [apply wcalm_ret|exact F].
  Qed.
  Lemma wcalm_bytes b : wcalm (encode_bytes C b).
  Proof. intros w. split; [reflexivity|apply calm_ok]. Qed.
  Lemma wcalm_size n : wcalm (encode_size_field C n).
  Proof.
    unfold encode_size_field. cbv zeta. destruct (N.eqb _ 1).
    - apply wcalm_bind; [apply wcalm_bytes|]. intros. apply wcalm_ret.
    - apply wcalm_bind; [apply wcalm_bytes|]. intros. apply wcalm_bind; [|intros; apply wcalm_ret].
      apply wcalm_seq. apply Forall_forall. intros m Hm. apply in_map_iff in Hm as (i & <- & _). apply wcalm_bytes.
  Qed.
  Ltac wsame := intros w; repeat (match goal with |- context [match ?x with _ => _ end] => destruct x end); (split; [reflexivity|cbn [fst]; calm_auto]).
  Lemma wcalm_push n : wcalm (push_backtrack C n).
  Proof. unfold push_backtrack. wsame. Qed.
  Lemma wcalm_pop n : wcalm (pop_backtrack C n).
  Proof. unfold pop_backtrack. wsame. Qed.
  Lemma wcalm_start : wcalm (start_backtrack C).
  Proof. unfold start_backtrack. wsame. Qed.
  Lemma wcalm_end : wcalm (end_backtrack C).
  Proof. unfold end_backtrack. wsame. Qed.
  Lemma wcalm_check : wcalm (check_not_truncated C).
  Proof. unfold check_not_truncated. wsame. Qed.
  Lemma wcalm_check_no : wcalm (check_no_backtracks C).
  Proof. unfold check_no_backtracks. wsame. Qed.
  Lemma wcalm_get_csr : wcalm (get_csr C).
  Proof. unfold get_csr. wsame. Qed.
  Lemma wcalm_set_csr r : wcalm (set_csr C r).
  Proof. unfold set_csr. wsame. Qed.
End Writer.

Ltac wcalm_step :=
  lazymatch goal with
  | |- wcalm (wbind _ _ _) => apply wcalm_bind; [|intros]
  | |- wcalm (wadd _ _ _) => unfold wadd
  | |- wcalm (wret _ _) => apply wcalm_ret
  | |- wcalm (wlift _ _) => apply wcalm_lift; calm_auto
  | |- wcalm (seq_of _ _) => apply wcalm_seq
  | |- Forall _ (_ ++ _) => apply Forall_app; split
  | |- Forall _ (_ :: _) => constructor
  | |- Forall _ [] => constructor
  | |- Forall _ (match ?x with _ => _ end) => destruct x
  | |- wcalm (encode_bytes _ _) => apply wcalm_bytes
  | |- wcalm (encode_byte _ _) => apply wcalm_bytes
  | |- wcalm (encode_tag_field _ _) => apply wcalm_bytes
  | |- wcalm (encode_size_field _ _) => apply wcalm_size
  | |- wcalm (push_backtrack _ _) => apply wcalm_push
  | |- wcalm (pop_backtrack _ _) => apply wcalm_pop
  | |- wcalm (start_backtrack _) => apply wcalm_start
  | |- wcalm (end_backtrack _) => apply wcalm_end
  | |- wcalm (check_not_truncated _) => apply wcalm_check
  | |- wcalm (check_no_backtracks _) => apply wcalm_check_no
  | |- wcalm (get_csr _) => apply wcalm_get_csr
  | |- wcalm (set_csr _ _) => apply wcalm_set_csr
  | |- wcalm (match ?x with _ => _ end) => destruct x
  | |- wcalm (let _ := _ in _) => cbv zeta
  end.
Ltac wcalm_auto := repeat wcalm_step.

Section Encoders.
  Variable cf : config.
  Variable crit : bool.
  Context {C : Type}.
  Notation wcalm := (@wcalm C _).

  Lemma calm_same {A B} e (r : result A) : r = Err e -> calm r -> calm (@Err B e).
  Proof. intros -> H x E. injection E as <-. exact (H _ eq_refl). Qed.
  Lemma calm_on_path n l : forall i t, calm (is_node_on_path cf n l i t).
  Proof. induction n as [|n IH]; intros; cbn [is_node_on_path]; calm_auto; [apply calm_get_context|apply IH]. Qed.
  Lemma calm_find l i c : calm (find_on_path cf l i c).
  Proof. induction c as [|x c IH]; cbn [find_on_path]; calm_auto; [apply calm_on_path|exact IH]. Qed.
  Lemma calm_next_back l it r it' : iter_next_back cf l it = (Some r, it') -> calm r.
  Proof.
    unfold iter_next_back. repeat match goal with |- (match ?x with _ => _ end) = _ -> _ => let D := fresh in destruct x eqn:D end;
      intros E; try discriminate; injection E as <- _; calm_auto.
    all: match goal with H : ?r = Err ?e |- calm (Err ?e) => apply (calm_same _ r H); first [apply calm_get_context|apply calm_find] end.
  Qed.
  Lemma calm_first md : calm (nodes_first cf md).
  Proof.
    unfold nodes_first, nodes_iter. apply calm_bind; [apply calm_new|]. intros it.
    destruct (iter_next_back cf (md_contexts md) it) as [[r|] it'] eqn:E; cbn [fst]; [|apply calm_ok].
    apply calm_next_back in E. destruct r as [c|e|k]; calm_auto. intros x X. injection X as <-. exact (E _ eq_refl).
  Qed.
  Lemma calm_num md : calm (nodes_num cf md).
  Proof. unfold nodes_num, nodes_iter. calm_auto. apply calm_new. Qed.
  Lemma calm_multi md b : calm (get_multi_tcb_info_size cf crit md b).
  Proof. unfold get_multi_tcb_info_size, nodes_empty, nodes_num, nodes_iter. calm_auto; try apply calm_new. apply calm_first. Qed.
  Lemma calm_extensions md a b d : calm (get_extensions_size cf crit md a b d).
  Proof. unfold get_extensions_size. calm_auto. apply calm_multi. Qed.
  Lemma calm_attribute md b : calm (get_attribute_size cf crit md b).
  Proof. unfold get_attribute_size. calm_auto. apply calm_extensions. Qed.
  Lemma calm_attributes md b : calm (get_attributes_size cf crit md b).
  Proof. unfold get_attributes_size. calm_auto. apply calm_attribute. Qed.

  Lemma wc_tlv t v : wcalm (encode_tlv C t v).
  Proof. unfold encode_tlv. wcalm_auto. Qed.
  Lemma wc_int l b : wcalm (encode_integer_bytes C l b).
  Proof. unfold encode_integer_bytes. wcalm_auto. Qed.
  Lemma wc_header o c n : wcalm (encode_extension_header C o c n).
  Proof. unfold encode_extension_header, encode_oid, encode_tlv. wcalm_auto. Qed.
  Lemma wc_rdn n : wcalm (encode_rdn C n).
  Proof. unfold encode_rdn, encode_rdn_string, encode_oid, encode_tlv. wcalm_auto. Qed.
  Lemma wc_alg : wcalm (encode_sig_alg_id cf C).
  Proof. unfold encode_sig_alg_id, encode_oid, encode_tlv. wcalm_auto. Qed.
  Lemma wc_bits g : wcalm (encode_signature_bit_string cf C g).
  Proof.
    unfold encode_signature_bit_string, encode_ecdsa_sig_bit_string, encode_mldsa_sig_bit_string.
    wcalm_auto; try apply wc_alg; apply wc_int.
  Qed.
  Lemma wc_octets g : wcalm (encode_signature_octet_string cf C g).
  Proof.
    unfold encode_signature_octet_string, encode_ecdsa_sig_octet_string. wcalm_auto; try apply wc_alg; try apply wc_int. apply wc_tlv.
  Qed.
  Lemma wc_spki pk : wcalm (encode_spki cf C pk).
  Proof.
    unfold encode_spki, encode_ecdsa_spki, encode_mldsa_spki, encode_ec_pub_alg_id, encode_oid, encode_tlv. wcalm_auto; apply wc_alg.
  Qed.
  Lemma wc_tcb t r : wcalm (encode_tcb_info cf C t r).
  Proof. unfold encode_tcb_info, encode_fwid, encode_integer, encode_oid. wcalm_auto; try apply wc_int; apply wc_tlv. Qed.
  Lemma wc_nodes n l : forall it r, wcalm (encode_nodes cf C n l it r).
  Proof.
    induction n as [|n IH]; intros it r; cbn [encode_nodes]; [wcalm_auto|].
    destruct (iter_next_back cf l it) as [[x|] it'] eqn:E; [|wcalm_auto]. apply calm_next_back in E.
    destruct x as [c|e|k]; wcalm_auto; [apply wc_tcb|apply IH|exact (calm_same _ _ eq_refl E)].
  Qed.
  Lemma wc_extensions md b : wcalm (encode_extensions cf crit C md b).
  Proof.
    unfold encode_extensions, encode_size_of, encode_multi_tcb_info, encode_ueid, encode_basic_constraints, encode_key_usage,
      encode_extended_key_usage, encode_ski_extension, encode_aki_extension, encode_san_extension, encode_other_name,
      encode_other_name_value, encode_key_identifier, encode_oid, nodes_empty, nodes_iter.
    wcalm_auto; 
      lazymatch goal with
      | |- wcalm (encode_extension_header _ _ _ _) => apply wc_header
      | |- wcalm (encode_tlv _ _ _) => apply wc_tlv
      | |- wcalm (encode_nodes _ _ _ _ _ _) => apply wc_nodes
      | |- calm (nodes_first _ _) => apply calm_first
      | |- calm (nodes_num _ _) => apply calm_num
      | |- calm (iter_new _ _ _) => apply calm_new
      | |- calm (get_multi_tcb_info_size _ _ _ _) => apply calm_multi
      | |- calm (get_extensions_size _ _ _ _ _ _) => apply calm_extensions
      end.
  Qed.
  Lemma wc_backfill n : wcalm (backfill C n).
  Proof. unfold backfill. wcalm_auto. Qed.
  Lemma wc_tbs s i n pk md v : wcalm (encode_tbs cf crit C s i n pk md v).
  Proof.
    unfold encode_tbs, encode_version, encode_integer, encode_validity. wcalm_auto;
      
      lazymatch goal with
      | |- wcalm (encode_integer_bytes _ _ _) => apply wc_int
      | |- wcalm (encode_sig_alg_id _ _) => apply wc_alg
      | |- wcalm (encode_rdn _ _) => apply wc_rdn
      | |- wcalm (encode_spki _ _ _) => apply wc_spki
      | |- wcalm (encode_extensions _ _ _ _ _) => apply wc_extensions
      | |- wcalm (backfill _ _) => apply wc_backfill
      | |- wcalm (encode_tlv _ _ _) => apply wc_tlv
      | |- calm (get_extensions_size _ _ _ _ _ _) => apply calm_extensions
      | |- calm (get_attribute_size _ _ _ _) => apply calm_attribute
      | |- calm (get_attributes_size _ _ _ _) => apply calm_attributes
      end.
  Qed.
  Lemma wc_info pk n md : wcalm (encode_certification_request_info cf crit C pk n md).
  Proof.
    unfold encode_certification_request_info, encode_integer, encode_attributes, encode_size_of, encode_oid. wcalm_auto;
      
      lazymatch goal with
      | |- wcalm (encode_integer_bytes _ _ _) => apply wc_int
      | |- wcalm (encode_sig_alg_id _ _) => apply wc_alg
      | |- wcalm (encode_rdn _ _) => apply wc_rdn
      | |- wcalm (encode_spki _ _ _) => apply wc_spki
      | |- wcalm (encode_extensions _ _ _ _ _) => apply wc_extensions
      | |- wcalm (backfill _ _) => apply wc_backfill
      | |- wcalm (encode_tlv _ _ _) => apply wc_tlv
      | |- calm (get_extensions_size _ _ _ _ _ _) => apply calm_extensions
      | |- calm (get_attribute_size _ _ _ _) => apply calm_attribute
      | |- calm (get_attributes_size _ _ _ _) => apply calm_attributes
      end.
  Qed.
End Encoders.

(** Writers that sign. *)
Section Signing.
  Variable cf : config.
  Variable crit : bool.
  Context {C : Type}.
  Variable co : crypto_ops C.
  Variable may : event -> Prop.
  Variable cb : sign_data -> bool -> C -> (signature + crypto_error) * C.

  Definition wtraced {A} (s : stage) (m : W C A) (Q : A -> stage -> Prop) : Prop :=
    forall w r w', m w = (r, w') ->
      exists t s', performs co (cw_c C w) t (cw_c C w') /\ Forall may t /\ orderly s t s' /\
        match r with
        | Ok a => clean t /\ Q a s'
        | Err e => (exists x, e = CryptoErr x /\ broken t x) \/ clean t /\ (e = CryptoErr CESize \/ calm (@Err A e))
        | Crash _ => clean t
        end.
  Lemma wt_calm {A} s (m : W C A) (Q : A -> stage -> Prop) : wcalm m -> (forall a, Q a s) -> wtraced s m Q.
  Proof.
    intros H K w r w' E. destruct (H w) as [H1 H2]. rewrite E in H1, H2. cbn [fst snd] in *. exists [], s. rewrite H1.
    split; [constructor|]. split; [constructor|]. split; [constructor|]. destruct r; [split; [constructor|auto]| |constructor].
    right. split; [constructor|]. right. exact H2.
  Qed.
  Lemma wt_stay {A} s (m : W C A) : wcalm m -> wtraced s m (stays s).
  Proof. intros H. apply wt_calm; [exact H|reflexivity]. Qed.
  Lemma wt_bind {A B} s (m : W C A) (f : A -> W C B) Q Q' :
    wtraced s m Q -> (forall a s', Q a s' -> wtraced s' (f a) Q') -> wtraced s (wbind C m f) Q'.
  Proof.
    intros Hm Hf w r w' E. unfold wbind in E. destruct (m w) as [[a|e|k] w1] eqn:Em.
    - destruct (Hm _ _ _ Em) as (t1 & s1 & A1 & A2 & A3 & A4 & A5). destruct (Hf _ _ A5 _ _ _ E) as (t2 & s2 & B1 & B2 & B3 & B4).
      exists (t1 ++ t2), s2. split; [eapply performs_app; eassumption|]. split; [apply Forall_app; auto|].
      split; [eapply orderly_app; eassumption|].
      destruct r as [b|e|k]; [destruct B4; split; [apply clean_app|]; auto| |apply clean_app; auto].
      destruct B4 as [(x & -> & K)|[K D]]; [left; exists x; split; [reflexivity|apply broken_app; auto]|right; split; [apply clean_app; auto|exact D]].
    - injection E as <- <-. destruct (Hm _ _ _ Em) as (t1 & s1 & A1 & A2 & A3 & A4). exists t1, s1. repeat split; auto.
      destruct A4 as [X|[X [->|Y]]]; [left; exact X|right; auto|right]. split; [exact X|]. right. exact (calm_same _ _ eq_refl Y).
    - injection E as <- <-. destruct (Hm _ _ _ Em) as (t1 & s1 & A1 & A2 & A3 & A4). exists t1, s1. auto.
  Qed.
  Lemma wt_sign s a b d Q : (forall m, traced_c co may s (cb (SDBuffer m) d) Q) -> wtraced s (call_sign C cb a b d) Q.
  Proof.
    intros H w r w' E. unfold call_sign in E. destruct (_ && _)%bool.
    - cbv zeta in E. destruct (cb _ _ _) as [[g|e] c] eqn:Ec; injection E as <- <-; destruct (H _ _ _ _ Ec) as (t & s' & H1 & H2 & H3 & H4);
        exists t, s'; cbn [cw_c]; repeat split; auto; try apply H4. left. eauto.
    - injection E as <- <-. exists [], s. split; [constructor|]. split; [constructor|]. split; [constructor|]. right. split; [constructor|auto].
  Qed.
  Lemma wt_payload s m d Q : wcalm m -> (forall x, traced_c co may s (cb (SDBuffer x) d) (fun _ => Q)) ->
    wtraced s (encode_signed_payload cf C cb m d) (fun _ => Q).
  Proof.
    intros Hm H. unfold encode_signed_payload.
    eapply wt_bind; [apply wt_stay; wcalm_auto|]. intros ? ? ->. eapply wt_bind; [apply wt_stay; wcalm_auto|]. intros ? ? ->.
    eapply wt_bind; [apply wt_stay, Hm|]. intros ? ? ->. eapply wt_bind; [apply wt_sign, H|]. intros ? s' HQ.
    apply wt_calm; [|intros; exact HQ]. wcalm_auto; [apply wc_bits|apply wc_backfill].
  Qed.
  Lemma wt_certificate s sn i n pk md v Q : (forall x, traced_c co may s (cb (SDBuffer x) false) (fun _ => Q)) ->
    wtraced s (encode_certificate cf crit C cb sn i n pk md v) (fun _ => Q).
  Proof.
    intros H. unfold encode_certificate. eapply wt_bind; [apply wt_payload; [apply wc_tbs|exact H]|]. intros ? s' HQ.
    apply wt_calm; [wcalm_auto|intros; exact HQ].
  Qed.
  Lemma wt_cms s pk n md sid Q1 Q : (forall x, traced_c co may s (cb (SDBuffer x) true) (fun _ => Q1)) ->
    (forall x s', Q1 s' -> traced_c co may s' (cb (SDBuffer x) false) (fun _ => Q)) ->
    wtraced s (encode_cms cf crit C cb pk n md sid) (fun _ => Q).
  Proof.
    intros H1 H2.
    assert (K : wtraced s (encode_encapsulated_content_info cf crit C cb pk n md) (fun _ => Q1)).
    { unfold encode_encapsulated_content_info, encode_csr, encode_oid.
      do 7 (eapply wt_bind; [apply wt_stay; wcalm_auto; apply wc_tlv|]; intros ? ? ->).
      eapply wt_bind.
      { eapply wt_bind; [apply wt_payload; [apply wc_info|exact H1]|]. intros ? s' HQ. apply (wt_calm _ _ (fun _ => Q1)); [wcalm_auto|intros; exact HQ]. }
      intros ? s' HQ. apply wt_calm; [wcalm_auto|intros; exact HQ]. }
    unfold encode_cms, encode_oid.
    do 7 (eapply wt_bind; [apply wt_stay; wcalm_auto; apply wc_tlv|]; intros ? ? ->).
    eapply wt_bind.
    { unfold seq_of, wadd. cbn [fold_left]. eapply wt_bind; [apply wt_stay|].
      - unfold encode_cms_version, encode_integer, encode_hash_alg_id, encode_oid. wcalm_auto; first [apply wc_int|apply wc_tlv].
      - intros ? ? ->. eapply wt_bind; [exact K|]. intros ? s' HQ. apply (wt_calm _ _ (fun _ => Q1)); [wcalm_auto|intros; exact HQ]. }
    intros ? s1 HQ1. eapply wt_bind; [apply wt_stay; wcalm_auto|]. intros ? ? ->.
    eapply wt_bind; [apply wt_sign; intros; apply H2, HQ1|]. intros ? s' HQ. apply wt_calm; [|intros; exact HQ].
    unfold encode_signer_info, encode_cms_version, encode_signer_identifier, encode_issuer_and_serial, encode_subject_key_identifier,
      encode_hash_alg_id, encode_oid, encode_integer.
    wcalm_auto; first [apply wc_int|apply wc_tlv|apply wc_octets].
  Qed.
End Signing.

(** ** Commands *)

Section Cmds.
  Variable cf : config.
  Context {C P : Type}.
  Variable co : crypto_ops C.
  Variable po : platform_ops P.
  Variable may : event -> Prop.
  Notation traced := (@traced C P co may _).
  Notation trc := (@traced_c C co may _).

  Lemma t_gen_loop n : may_rand may -> forall s, sg_open s = ONone -> forall w r w', gen_handle_loop C P co n w = (r, w') ->
    w_st w' = w_st w /\ exists t, performs co (w_c w) t (w_c w') /\ Forall may t /\ orderly s t s /\
      match r with
      | Ok _ => clean t
      | Err (CryptoErr x) => broken t x
      | Err (InternalError HandleGenerationExhausted) =>
          clean t /\ exists bs, t = map (fun b => EvRand 16 (inl b)) bs /\ length bs = n /\ Forall (unusable (w_st w)) bs
      | _ => False
      end.
  Proof.
    intros Hr s O. induction n as [|n IH]; intros w r w' H; cbn [gen_handle_loop] in H.
    { injection H as <- <-. split; [reflexivity|]. exists []. split; [constructor|]. split; [constructor|]. split; [constructor|].
      split; [constructor|]. exists []. repeat split; constructor. }
    apply bind_inv in H as [(b & w1 & E & H)|[(e & E & ->)|(k & E & ->)]]; unfold crypto in E;
      destruct (co_rand_bytes co handle_size (w_c w)) as [[b0|x] c1] eqn:Ec; try discriminate; injection E as <- <-.
    - apply bind_inv in H as [(s1 & w2 & E & H)|[(e & E & ->)|(k & E & ->)]]; try discriminate. injection E as <- <-. cbn [w_st w_c] in *.
      assert (St : makes co (EvRand 16 (inl b0)) (w_c w) c1) by exact Ec.
      assert (Al : allowed s (EvRand 16 (inl b0)) s) by (apply al_rand, O).
      destruct (negb (handle_is_default _) && negb _)%bool eqn:D.
      + injection H as <- <-. split; [reflexivity|]. exists [EvRand 16 (inl b0)]. split; [econstructor; [exact St|constructor]|].
        split; [repeat constructor; apply Hr|]. split; [econstructor; [exact Al|constructor]|]. repeat constructor.
      + destruct (IH _ _ _ H) as (Hs & t & H1 & H2 & H3 & H4). cbn [w_st w_c] in *. split; [exact Hs|].
        exists (EvRand 16 (inl b0) :: t). split; [econstructor; eassumption|]. split; [constructor; [apply Hr|exact H2]|].
        split; [econstructor; eassumption|].
        assert (U : unusable (w_st w) b0).
        { apply andb_false_iff in D as [D|D]; apply negb_false_iff in D.
          - left. apply handle_is_default_eq in D. exact D.
          - right. apply existsb_exists in D as (c & I1 & I2). apply handle_eqb_eq in I2. eauto. }
        destruct r as [a|e|k]; [constructor; [reflexivity|exact H4]| |exact H4].
        destruct e as [|ic| | | | | | | | | | | | | | | | | | | | | | |x|]; try exact H4.
        * destruct ic; try exact H4. destruct H4 as (K & bs & -> & L & F). split; [constructor; [reflexivity|exact K]|].
          exists (b0 :: bs). split; [reflexivity|]. split; [cbn [length]; congruence|constructor; auto].
        * change (broken ([EvRand 16 (inl b0)] ++ t) x). apply broken_app; [repeat constructor|exact H4].
    - split; [reflexivity|]. exists [EvRand 16 (inr x)]. split; [econstructor; [exact Ec|constructor]|].
      split; [repeat constructor; apply Hr|]. split; [econstructor; [apply al_rand, O|constructor]|].
      exists [], (EvRand 16 (inr x)). split; [reflexivity|]. split; [constructor|reflexivity].
  Qed.
  Lemma t_gen s : may_rand may -> sg_open s = ONone -> traced s (generate_new_handle C P co) (stays s).
  Proof.
    intros Hr O w r w' H. apply (t_gen_loop _ Hr s O) in H as (Hs & t & H1 & H2 & H3 & H4).
    exists t, s. split; [exact H1|]. split; [exact H2|]. split; [exact H3|]. destruct r as [a|e|k]; [split; [exact H4|reflexivity]| |destruct H4].
    destruct e as [|ic| | | | | | | | | | | | | | | | | | | | | | |x|]; cbn [ends]; try (exfalso; exact H4).
    - destruct ic; try (exfalso; exact H4). destruct H4 as (K & bs & E & F). split; [exact K|]. rewrite Hs. exists [], bs. auto.
    - left. exact H4.
  Qed.
  Lemma t_roll s c : may_rand may -> sg_open s = ONone -> traced s (roll_handle C P co c) (stays s).
  Proof.
    intros Hr O. unfold roll_handle. destruct (negb _); [|apply traced_ret; reflexivity].
    eapply traced_bind; [apply t_gen; auto|]. intros ? ? ->. apply traced_ret. reflexivity.
  Qed.
  Lemma t_updates s l : may_hash may -> sg_open s = OHash -> traced s (hash_updates C P co l) (stays s).
  Proof.
    intros Hh O. induction l as [|b l IH]; cbn [hash_updates]; [apply traced_ret; reflexivity|].
    eapply traced_bind; [apply traced_crypto, c_update; auto|]. intros ? ? ->. exact IH.
  Qed.
  Lemma t_hash_all s l : may_hash may -> sg_open s = ONone -> traced s (hash_all C P co l) (fun d s' => s' = note d s).
  Proof.
    intros Hh O. unfold hash_all. eapply traced_bind; [apply traced_crypto, c_hasher; auto|]. intros ? ? ->.
    eapply traced_bind; [apply traced_crypto, c_initialize; auto|]. intros ? ? ->.
    eapply traced_bind; [apply t_updates; auto|]. intros ? ? ->. eapply traced_weaken; [apply traced_crypto, c_finish; auto|]. intros ? ? ->. reflexivity.
  Qed.
  Lemma t_add s c m l : may_hash may -> sg_open s = ONone -> traced s (add_tci_measurement C P co c m l) (fun _ s' => exists d, s' = note d s).
  Proof.
    intros Hh O. unfold add_tci_measurement. destruct (negb _); [apply traced_fail; reflexivity|]. destruct (negb _); [apply traced_fail; reflexivity|].
    eapply traced_bind; [apply t_hash_all; auto|]. intros d ? ->. destruct (negb _); [apply traced_fail; reflexivity|]. apply traced_ret. eauto.
  Qed.
  Lemma t_chain_call s o n b : traced s (cert_chain_call C P po o n b) (stays s).
  Proof.
    apply traced_same. intros w. unfold cert_chain_call. destruct (po_certificate_chain _ _ _ _ _) as [[r x] p].
    split; [reflexivity|]. split; [apply calm_ok|reflexivity].
  Qed.
  Lemma t_nodes s n l : may_hash may -> sg_open s = OHash -> forall it i d, traced s (hash_nodes cf C P co n l it i d) (stays s).
  Proof.
    intros Hh O. induction n as [|n IH]; intros; cbn [hash_nodes]; [apply traced_lift; [apply calm_crash|discriminate]|].
    destruct (iter_next cf l it) as [[x|] it'] eqn:E; [|apply traced_ret; reflexivity]. apply calm_next in E.
    destruct x as [c|e|k].
    - eapply traced_bind; [apply traced_crypto, c_update; auto|]. intros ? ? ->.
      eapply traced_bind; [apply traced_crypto, c_update; auto|]. intros ? ? ->. apply IH.
    - apply traced_same. intros w. split; [reflexivity|]. split; [exact (calm_same _ _ eq_refl E)|]. discriminate.
    - apply traced_lift; [apply calm_crash|discriminate].
  Qed.
  Lemma t_chain s n : may_hash may -> sg_open s = OHash -> forall o b, traced s (hash_cert_chain C P co po n o b) (stays s).
  Proof.
    intros Hh O. induction n as [|n IH]; intros; cbn [hash_cert_chain]; [apply traced_lift; [apply calm_crash|discriminate]|].
    eapply traced_bind; [apply t_chain_call|]. intros [[len|e] buf'] ? ->; [|apply traced_ret; reflexivity].
    destruct (N.ltb _ _); [apply traced_fail; reflexivity|].
    eapply traced_bind; [apply traced_crypto, c_update; auto|]. intros ? ? ->.
    destruct (N.leb _ _); [apply traced_lift; [apply calm_crash|discriminate]|]. apply IH.
  Qed.
  Lemma t_cmh s i : may_hash may -> sg_open s = ONone -> traced s (compute_measurement_hash cf C P co po i) (fun d s' => s' = note d s).
  Proof.
    intros Hh O. unfold compute_measurement_hash, internal_input_info, get_profile.
    eapply traced_bind; [apply traced_crypto, c_hasher; auto|]. intros ? ? ->.
    eapply traced_bind; [apply traced_crypto, c_initialize; auto|]. intros ? ? ->.
    eapply traced_bind; [apply traced_get|]. intros st ? ->.
    eapply traced_bind; [apply traced_lift', calm_new|]. intros it ? [_ ->].
    eapply traced_bind; [apply t_nodes; auto|]. intros [info dice] ? ->.
    eapply (traced_bind _ _ _ _ _ (stays (opens OHash (opens OHasher s)))).
    { destruct info; [|apply traced_ret; reflexivity].
      eapply (traced_bind _ _ _ _ _ (stays (opens OHash (opens OHasher s)))); [|intros b s' ->; apply traced_crypto, c_update; auto].
      eapply (traced_bind _ _ _ _ _ (stays (opens OHash (opens OHasher s)))); [|intros b s' ->; apply traced_ret; reflexivity].
      eapply traced_bind; [apply traced_platform|]. intros ? ? ->. eapply traced_bind; [apply traced_platform|]. intros ? ? ->.
      apply traced_ret. reflexivity. }
    intros ? ? ->. eapply (traced_bind _ _ _ _ _ (stays (opens OHash (opens OHasher s)))).
    { destruct dice; [apply t_chain; auto|apply traced_ret; reflexivity]. }
    intros ? ? ->. eapply traced_weaken; [apply traced_crypto, c_finish; auto|]. intros ? ? ->. reflexivity.
  Qed.

  Lemma t_hash_pubkey s pk : may_hash may -> sg_open s = ONone -> traced s (hash_pubkey C P co pk) (fun d s' => s' = note d s).
  Proof. intros Hh O. unfold hash_pubkey. destruct pk; cbn [ecdsa_pub]; apply t_hash_all; auto. Qed.

  (** The calls of a certificate. *)
  Definition may_cert (k : cert_kind) (a : cert_args) : Prop :=
    may_hash may /\ (forall r, may (EvPublic r)) /\ (forall m r, may (EvAlias (SDBuffer m) r)) /\
    match k with
    | KindExported =>
        (forall d r, may (EvExported d (ca_cdi_label a) r)) /\ (forall h r, may (EvKeyExported h (ca_key_label a) (ca_context a) r))
    | _ =>
        (forall d r, may (EvCdi d (ca_cdi_label a) r)) /\ (forall r, may (EvKey (ca_key_label a) (ca_context a) r))
    end /\ (k = KindCsr -> forall m r, may (EvSign (SDBuffer m) r)).

  Lemma t_subject_key k a d s : may_cert k a -> sg_open s = ONone -> sg_digest s = Some d -> sg_public s = None ->
    traced s (derive_subject_key C P co k a d) (fun x s' => s' = mkStage ONone (Some d) (sg_signed s) (sg_alias s) (Some (fst x))).
  Proof.
    intros (_ & Hp & _ & Hk & _) O D D'. unfold derive_subject_key, derive_pub_key.
    assert (K : kind_exported k = false -> (forall d r, may (EvCdi d (ca_cdi_label a) r)) -> (forall r, may (EvKey (ca_key_label a) (ca_context a) r)) ->
      traced s (bind (crypto (cseq C (co_derive_cdi co d (ca_cdi_label a)) (fun _ =>
        cseq C (co_derive_key_pair co (ca_key_label a) (ca_context a)) (fun _ => co_signer_public_key co)))) (fun pk => ret (pk, @None bytes)))
        (fun x s' => s' = mkStage ONone (Some d) (sg_signed s) (sg_alias s) (Some (fst x : pubkey)))).
    { intros _ H1 H2. eapply traced_bind.
      { apply traced_crypto. eapply traced_seq; [apply c_cdi; auto|]. intros ? ? ->. eapply traced_seq; [apply c_key; auto|]. intros ? ? ->.
        apply c_public; auto. }
      intros pk ? ->. apply traced_ret. cbn. rewrite D. reflexivity. }
    destruct k; cbn [kind_exported]; destruct Hk as [H1 H2]; try (apply K; auto; reflexivity).
    eapply traced_bind; [apply traced_crypto, c_exported; auto|]. intros h ? ->. cbv zeta.
    eapply traced_bind; [apply traced_crypto, c_key_exported; auto|]. intros ? ? ->.
    eapply traced_bind; [apply traced_crypto, c_public; auto|]. intros pk ? ->. apply traced_ret. cbn. rewrite D. reflexivity.
  Qed.
  Lemma t_serial s pk n : may_hash may -> sg_open s = ONone -> sg_public s = Some pk -> (48 <= n)%nat ->
    traced s (get_pubkey_serial C P co pk (repeat 0 (n * 2))) (fun _ s' => exists d, s' = note d s).
  Proof.
    intros Hh O Hpk L. unfold get_pubkey_serial.
    eapply (traced_bind _ _ _ _ _ (fun size s' => s' = s /\ exists al, size = digest_alg_size al)).
    { apply traced_same. intros w. split; [reflexivity|]. split; [apply calm_ok|]. intros x E. injection E as <-. eauto. }
    intros size ? [-> [al ->]]. destruct (Nat.ltb_spec (length (repeat 0 (n * 2))) (digest_alg_size al * 2)) as [X|_].
    { exfalso. rewrite repeat_length in X. destruct al; cbn [digest_alg_size] in X; lia. }
    eapply (traced_bind _ _ _ _ _ (fun x s' => s' = s /\ exists c, x = co_signature_algorithm co c)).
    { apply traced_same. intros w. split; [reflexivity|]. split; [apply calm_ok|]. intros x E. injection E as <-. eauto. }
    intros x ? [-> [c ->]]. destruct (alg_matches (co_signature_algorithm co c) pk) eqn:D; cbn [negb].
    - eapply traced_bind; [apply t_hash_pubkey; auto|]. intros d ? ->. apply traced_lift; [apply calm_hex, L|eauto].
    - intros w r w' H. injection H as <- <-. exists [], s. split; [constructor|]. split; [constructor|]. split; [constructor|].
      right. split; [constructor|]. exists pk. split; [exact Hpk|]. right. split; [reflexivity|]. eauto.
  Qed.
  Lemma t_name s k pk : may_hash may -> sg_open s = ONone -> sg_public s = Some pk ->
    traced s (get_subject_name C P co k pk) (fun _ s' => exists d, s' = note d s).
  Proof.
    intros Hh O Hpk. unfold get_subject_name. eapply traced_bind; [apply t_serial; auto; unfold max_hash_size; lia|]. intros ? ? X. apply traced_ret. exact X.
  Qed.
  Lemma t_ski s pk : may_hash may -> sg_open s = ONone -> traced s (get_subject_key_identifier C P co pk) (fun _ s' => exists d, s' = note d s).
  Proof.
    intros Hh O. unfold get_subject_key_identifier. eapply traced_bind; [apply t_hash_pubkey; auto|]. intros d ? ->.
    destruct (Nat.ltb _ _); [apply traced_fail; reflexivity|]. apply traced_ret. eauto.
  Qed.
  Lemma orderly_public s t s' : orderly s t s' -> sg_public s <> None -> sg_public s' = sg_public s.
  Proof.
    induction 1 as [s|x t s s1 s2 X _ IH]; intros N; [reflexivity|].
    assert (Y : sg_public s1 = sg_public s) by (inversion X; subst; cbn in *; try reflexivity; contradiction). rewrite IH; congruence.
  Qed.
  Lemma t_writer {A} s off (m : W C N) (Q : A -> stage -> Prop) Q1 pk : sg_public s = Some pk -> wtraced co may s m Q1 -> traced s (run_writer C P off m) Q1.
  Proof.
    intros Hpk H w r w' E. unfold run_writer in E. destruct (m _) as [x y] eqn:Em. injection E as <- <-.
    destruct (H _ _ _ Em) as (t & s' & H1 & H2 & H3 & H4). exists t, s'. cbn [cw_c cw_new w_c w_st] in *. split; [exact H1|]. split; [exact H2|]. split; [exact H3|].
    destruct x as [n|e|k]; [exact H4| |exact H4]. destruct H4 as [(x & -> & B)|[K [->|D]]]; [left; exact B|right; split; [exact K|]; exists pk; split; [rewrite (orderly_public _ _ _ H3), Hpk; congruence|auto]|].
    eapply ends_calm; [exact D|exact K].
  Qed.
  Lemma t_create k a off : may_cert k a -> traced stage0 (create_cert cf C P co po k a off) (fun x s => exists d, s = mkStage ONone (Some d) (kind_csr k) true (Some (cr_pubkey x))).
  Proof.
    intros Hm. pose proof Hm as (Hh & Hp & Ha & Hk & Hs). unfold create_cert.
    eapply traced_bind; [apply traced_get|]. intros s0 ? ->. eapply traced_bind; [apply traced_lift', calm_pos|]. intros i0 ? [_ ->].
    eapply traced_bind; [apply t_cmh; auto|]. intros d ? ->.
    eapply traced_bind; [apply t_subject_key; [exact Hm|reflexivity..]|]. intros [pk h] ? ->. cbv zeta. cbn [fst snd sg_signed sg_alias note stage0].
    set (s1 := mkStage ONone (Some d) false false (Some pk)).
    eapply traced_bind; [apply t_name; auto|]. intros subject ? [d1 ->]. change (note d1 s1) with s1.
    eapply traced_bind; [apply t_ski; auto|]. intros ski ? [d2 ->]. change (note d2 s1) with s1.
    eapply (traced_bind _ _ _ _ _ (stays s1)).
    { apply traced_same. intros w. unfold get_authority_key_identifier. destruct (po_issuer_key_identifier _ _ _) as [[[x|e] b] p];
        (split; [reflexivity|]; split; [cbn [fst]; calm_auto|reflexivity]). }
    intros aki ? ->. eapply (traced_bind _ _ _ _ _ (stays s1)).
    { apply traced_same. intros w. unfold get_subject_alt_name. destruct (po_subject_alt_name _ _) as [[x|[]] p];
        (split; [reflexivity|]; split; [cbn [fst]; calm_auto|reflexivity]). }
    intros san ? ->. eapply traced_bind; [apply traced_get|]. intros st ? ->.
    eapply traced_bind; [apply traced_lift', calm_pos|]. intros i ? [_ ->]. eapply traced_bind; [apply traced_lift', calm_nodes|]. intros ? ? [_ ->].
    eapply traced_bind; [apply traced_platform|]. intros v ? ->. eapply traced_bind; [apply traced_platform|]. intros sid ? ->.
    eapply (traced_bind _ _ _ _ _ (stays (mkStage ONone (Some d) (kind_csr k) true (Some pk)))).
    { destruct k; cbn [kind_csr]; cbv iota.
      - eapply (traced_bind _ _ _ _ _ (stays s1)).
        { apply traced_same. intros w. unfold get_issuer_name. destruct (po_issuer_name _ _ _) as [[[x|e] b] p];
            (split; [reflexivity|]; split; [cbn [fst]; calm_auto|reflexivity]). }
        intros issuer ? ->. unfold generate_cert. destruct (Nat.ltb _ _); [apply traced_fail; reflexivity|].
        eapply traced_bind; [apply (t_writer (A := N) s1 _ _ (fun _ _ => True) _ pk eq_refl), (wt_certificate _ _ _ _ _ _ _ _ _ _ _ _ (fun s => s = mkStage ONone (Some d) false true (Some pk))); intros x; unfold sign_cb; apply c_alias; auto|].
        intros n ? Hq. apply traced_lift; [apply calm_u32; discriminate|]. intros ? _. rewrite Hq. reflexivity.
      - unfold generate_csr. eapply traced_bind; [apply (t_writer (A := N) s1 _ _ (fun _ _ => True) _ pk eq_refl); apply (wt_cms _ _ _ _ _ _ _ _ _ _ (fun s => s = mkStage ONone (Some d) true false (Some pk)) (fun s => s = mkStage ONone (Some d) true true (Some pk)))|].
        + intros x. unfold sign_cb, sign_with_derived. cbn [kind_exported]. destruct Hk as [H1 H2].
          eapply traced_seq; [apply c_cdi; auto|]. intros ? ? ->. eapply traced_seq; [apply c_key; auto|]. intros ? ? ->. apply c_sign; auto.
        + intros x s' ->. unfold sign_cb. apply c_alias; auto.
        + intros n ? Hq. apply traced_lift; [apply calm_u32; discriminate|]. intros ? _. rewrite Hq. reflexivity.
      - eapply (traced_bind _ _ _ _ _ (stays s1)).
        { apply traced_same. intros w. unfold get_issuer_name. destruct (po_issuer_name _ _ _) as [[[x|e] b] p];
            (split; [reflexivity|]; split; [cbn [fst]; calm_auto|reflexivity]). }
        intros issuer ? ->. unfold generate_cert. destruct (Nat.ltb _ _); [apply traced_fail; reflexivity|].
        eapply traced_bind; [apply (t_writer (A := N) s1 _ _ (fun _ _ => True) _ pk eq_refl), (wt_certificate _ _ _ _ _ _ _ _ _ _ _ _ (fun s => s = mkStage ONone (Some d) false true (Some pk))); intros x; unfold sign_cb; apply c_alias; auto|].
        intros n ? Hq. apply traced_lift; [apply calm_u32; discriminate|]. intros ? _. rewrite Hq. reflexivity. }
    intros n ? ->. eapply (traced_bind _ _ _ _ _ (stays (mkStage ONone (Some d) (kind_csr k) true (Some pk)))).
    { destruct (kind_exported k); [apply traced_lift; [apply calm_ok_or; reflexivity|reflexivity]|apply traced_ret; reflexivity]. }
    intros ? ? ->. apply traced_ret. exists d. reflexivity.
  Qed.
End Cmds.
