(** Props_Simulator.v -- C50: the simulator. *)
From Verif Require Import Base Errors Types StateOps Env Wire Instance Commands RespBuf Response X509 X509Cert RustCrypto DefaultPlatform Simulator
  Lib Spec Exec Effects Forest DestroyProofs History Contract Steps Reach Denials CommandSpecs Responses WireSpec Codec Execute
  X509Spec X509Cmd X509Facts X509Fit Fits Buffers X509Sane RustProofs PlatformProofs Props_Commands Props_Avail Props_Reference Props_Size Toy SimulatorProofs.
Local Open Scope N_scope.

(** ** Starting *)

(** The feature behind bit [i] of the support word was asked for. *)
Definition asked (a : sim_args) (i : N) : bool :=
  match i with
  | 31 => sa_simulation a | 30 => sa_recursive a | 29 => sa_auto_init a | 27 => sa_rotate_context a
  | 26 => sa_x509 a | 25 => sa_csr a | 22 => sa_internal_info a | 21 => sa_internal_dice a
  | 19 => sa_retain_parent_context a | 18 => sa_cdi_export a
  | _ => false
  end.

Lemma flag_set_bit m i b j : N.testbit (flag_set m i b) j = if N.eqb i j then b else N.testbit m j.
Proof.
  unfold flag_set, bit. destruct b.
  - rewrite N.lor_spec, N.shiftl_1_l, N.pow2_bits_eqb. destruct (N.eqb i j); [apply orb_true_r|apply orb_false_r].
  - rewrite N.ldiff_spec, N.shiftl_1_l, N.pow2_bits_eqb. destruct (N.eqb i j); cbn [negb]; [apply andb_false_r|apply andb_true_r].
Qed.

Lemma sim_support_bits a i : N.testbit (sim_support a) i = asked a i.
Proof.
  unfold sim_support. rewrite !flag_set_bit, N.bits_0.
  repeat match goal with |- context [N.eqb ?k i] => destruct (N.eqb_spec k i) as [<-|?]; [reflexivity|] end.
  destruct i as [|p]; [reflexivity|]. do 5 (destruct p as [p|p|]; try reflexivity; try congruence).
Qed.

Lemma asked_u32 a : u32 (sim_support a).
Proof.
  unfold u32. destruct (N.eq_dec (sim_support a) 0) as [->|N0]; [reflexivity|].
  apply N.log2_lt_pow2; [lia|]. pose proof (N.bit_log2 _ N0) as B. rewrite sim_support_bits in B.
  destruct (N.lt_ge_cases (N.log2 (sim_support a)) 32) as [L|L]; [exact L|exfalso].
  destruct (N.log2 (sim_support a)) as [|p]; [lia|].
  do 5 (destruct p as [p|p|]; try discriminate; try lia). 
Qed.

(** Whatever the command line, the simulator starts; it offers exactly the features
    that were asked for, marks extensions as critical exactly if this was asked for, and
    has a default context, in locality 0, exactly if AUTO_INIT was. *)
Theorem C50_start :
  forall cf R (pr : primitives R) chain issuer serial ski a seed, config_ok cf ->
    exists w, sim_start cf R pr chain issuer serial ski a seed = (Ok tt, w) /\ reachable cf (w_st w) /\
      (forall i, supports (w_st w) i <-> asked a i = true) /\
      (forall i, N.testbit (st_flags (w_st w)) i = (N.eqb i 15 && sa_critical a)%bool) /\
      if sa_auto_init a
      then auto_initialised cf (sim_support a) (sim_flags a) 0 0 (repeat 0 (tci_size cf)) (repeat 0 (tci_size cf)) (w_st w)
      else w_st w = state_new cf (sim_support a) (sim_flags a).
Proof.
  intros cf R pr chain issuer serial ski a seed Hcf.
  destruct (sim_start cf R pr chain issuer serial ski a seed) as [r w] eqn:E. unfold sim_start in E.
  pose (e := {| e_C := rust_c R; e_P := unit; e_crypto := sim_ops cf R pr; e_platform := sim_platform chain issuer serial ski;
                e_cert := x509_gen cf (rust_c R) unit (sim_ops cf R pr) (sim_platform chain issuer serial ski) |}).
  assert (r = Ok tt).
  { destruct (C36_new_succeeds cf e _ _ _ _ _ _ _ Hcf (asked_u32 a) E) as [->|(pe & p' & _ & X & _)]; [reflexivity|discriminate]. }
  subst r. exists w. split; [reflexivity|]. split.
  { destruct w as [s c p o]. exists [EvNew (Ok tt)]. eapply (hi_create cf _ _ [] _ e); [apply hi_new, (asked_u32 a)|exact I| |intros; exact I].
    do 6 eexists. exact E. }
  assert (S : st_support (w_st w) = sim_support a /\ st_flags (w_st w) = sim_flags a /\
    if sa_auto_init a then auto_initialised cf (sim_support a) (sim_flags a) 0 0 (repeat 0 (tci_size cf)) (repeat 0 (tci_size cf)) (w_st w)
    else w_st w = state_new cf (sim_support a) (sim_flags a)).
  { destruct (C36_new cf e _ _ _ _ _ _ _ Hcf E) as (_ & [(B & _ & H)|[(_ & N & _)|(B & _ & x & p' & X & H)]]).
    - unfold AUTO_INIT in B. rewrite sim_support_bits in B. cbn [asked] in B. rewrite B. change (w_st w = state_new cf (sim_support a) (sim_flags a)) in H. rewrite H. auto.
    - contradiction.
    - unfold AUTO_INIT in B. rewrite sim_support_bits in B. cbn [asked] in B. rewrite B. injection X as <- _.
      pose proof H as (H1 & H2 & _). auto. }
  destruct S as (S1 & S2 & S3). split; [|split; [|exact S3]].
  - intros i. unfold supports. rewrite S1, sim_support_bits. reflexivity.
  - intros i. rewrite S2. unfold sim_flags. rewrite flag_set_bit, N.bits_0. rewrite (N.eqb_sym i). destruct (N.eqb 15 i); reflexivity.
Qed.
Print Assumptions C50_start.

(** ** One connection *)
Section Sim.
  Variable cf : config.
  Variable R : Type.
  Variable pr : primitives R.
  Variables chain issuer serial ski : bytes.
  Notation ops := (sim_ops cf R pr).
  Notation plat := (sim_platform chain issuer serial ski).

  (** The environment of the simulator. *)
  Definition sim_exec (cmd : command) (loc : N) : world (rust_c R) unit -> result N * world (rust_c R) unit :=
    exec_command cf (rust_c R) unit ops plat (x509_gen cf (rust_c R) unit ops plat) cmd loc.

  (** The command, run with a buffer of zeros of the size of its response structure, ends
      with [r] and [out], and leaves the world [w']. *)
  Definition runs_to (cmd : command) (loc : N) (w : world (rust_c R) unit) (r : result N) (out : bytes) (w' : world (rust_c R) unit) : Prop :=
    exists w1, sim_exec cmd loc (mkWorld (w_st w) (w_c w) (w_p w) (repeat 0 (N.to_nat (wire_size cf cmd)))) = (r, w1) /\
      out = w_out w1 /\ w' = mkWorld (w_st w1) (w_c w1) (w_p w1) (w_out w).

  (** Connections that are answered with [bs], each with the answer to its command. *)
  Inductive conversation : list connection -> world (rust_c R) unit -> list bytes -> world (rust_c R) unit -> Prop :=
  | cv_end w : conversation [] w [] w
  | cv_more cn l w loc cmd r out w1 bs w2 :
      brings cf cn loc cmd -> cn_open cn = true -> runs_to cmd loc w r out w1 -> (forall k, r <> Crash k) ->
      conversation l w1 bs w2 -> conversation (cn :: l) w (answer_bytes cf r out :: bs) w2.
End Sim.

(** A connection is answered exactly if it brings at least four bytes, the rest is a
    request, and the peer waits for the answer.  The answer is what the command wrote, or
    an error header with the status of the error. *)
Theorem C50_request :
  forall cf R (pr : primitives R) chain issuer serial ski cn w r w',
    config_ok cf -> chain_fits chain -> (length chain < 2048 * (fuel cf - 1))%nat ->
    reachable cf (w_st w) -> (forall msg, cn_read cn = Some msg -> all_bytes msg) ->
    handle_request cf R pr chain issuer serial ski cn w = (r, w') ->
    ((exists b, r = Answered b) <-> cn_open cn = true /\ exists loc cmd, brings cf cn loc cmd) /\
    (forall loc cmd, brings cf cn loc cmd ->
       exists r0 out, runs_to cf R pr chain issuer serial ski cmd loc w r0 out w' /\ (forall k, r0 <> Crash k) /\
         (cn_open cn = true -> r = Answered (answer_bytes cf r0 out))) /\
    ((forall loc cmd, ~ brings cf cn loc cmd) -> w' = w).
Proof.
  intros cf R pr chain issuer serial ski cn w r w' Hcf HC HF Hr Hb H.
  destruct (handle_spec cf Hcf R pr chain issuer serial ski HC HF cn w r w' Hr Hb H) as [H1 H2].
  split; [split|split].
  - intros [b ->]. destruct (cn_open cn) eqn:O.
    + split; [reflexivity|].
      destruct (brings_dec cf cn Hb) as [D|D]; [exact D|]. destruct (H2 D) as [X _]. discriminate.
    + exfalso. assert (D : forall loc cmd, ~ brings cf cn loc cmd).
      { intros loc cmd X. destruct (H1 _ _ X) as (? & ? & _ & _ & _ & Y). discriminate. }
      destruct (H2 D) as [X _]. discriminate.
  - intros (O & loc & cmd & X). destruct (H1 _ _ X) as (? & ? & _ & _ & _ & Y). rewrite O in Y. eauto.
  - intros loc cmd X. destruct (H1 _ _ X) as (r0 & w1 & X1 & X2 & X3 & X4). exists r0, (w_out w1).
    split; [exists w1; auto|]. split; [exact X2|]. intros O. rewrite O in X4. exact X4.
  - intros D. apply H2 in D. apply D.
Qed.
Print Assumptions C50_request.

(** ** All connections *)

(** The simulator answers connections until the first one that it cannot answer, which
    ends it. *)
Theorem C50_conversation :
  forall cf R (pr : primitives R) chain issuer serial ski l w rs w',
    config_ok cf -> chain_fits chain -> (length chain < 2048 * (fuel cf - 1))%nat ->
    reachable cf (w_st w) -> Forall (fun cn => forall msg, cn_read cn = Some msg -> all_bytes msg) l ->
    serve cf R pr chain issuer serial ski l w = (rs, w') ->
    reachable cf (w_st w') /\
    ((exists bs, conversation cf R pr chain issuer serial ski l w bs w' /\ rs = map Answered bs) \/
     exists l1 cn l2 bs w1, l = l1 ++ cn :: l2 /\ conversation cf R pr chain issuer serial ski l1 w bs w1 /\
       rs = map Answered bs ++ [Panicked] /\
       ((forall loc cmd, ~ brings cf cn loc cmd) /\ w' = w1 \/
        cn_open cn = false /\ exists loc cmd r out, brings cf cn loc cmd /\ runs_to cf R pr chain issuer serial ski cmd loc w1 r out w')).
Proof.
  intros cf R pr chain issuer serial ski l w rs w' Hcf HC HF. revert w rs w'.
  assert (ST : forall cmd loc w r out w', reachable cf (w_st w) -> command_wf cf cmd -> u32 loc ->
            runs_to cf R pr chain issuer serial ski cmd loc w r out w' -> reachable cf (w_st w')).
  { intros cmd loc w r out w' [lg Hr] Wc Wl (w1 & X & _ & ->). cbn [w_st].
    exists (EvCommand cmd loc r :: lg).
    eapply (hi_command cf _ _ lg (w_st w) {| e_C := rust_c R; e_P := unit; e_crypto := sim_ops cf R pr; e_platform := sim_platform chain issuer serial ski;
                e_cert := x509_gen cf (rust_c R) unit (sim_ops cf R pr) (sim_platform chain issuer serial ski) |}); try exact I; try assumption.
    destruct w1 as [s1 c1 p1 o1]. do 6 eexists. exact X. }
  induction l as [|cn l IH]; intros w rs w' Hr Hb H; cbn [serve] in H.
  { injection H as <- <-. split; [exact Hr|]. left. exists []. split; [constructor|reflexivity]. }
  inversion Hb as [|? ? Hb1 Hb2]; subst.
  destruct (handle_request cf R pr chain issuer serial ski cn w) as [r w1] eqn:E.
  destruct (C50_request cf R pr chain issuer serial ski cn w r w1 Hcf HC HF Hr Hb1 E) as (K1 & K2 & K3).
  destruct r as [b|].
  - destruct (proj1 K1 (ex_intro _ b eq_refl)) as (O & loc & cmd & Bg).
    destruct (K2 _ _ Bg) as (r0 & out & X & NC & Y). specialize (Y O). injection Y as ->.
    assert (Hr1 : reachable cf (w_st w1)).
    { destruct Bg as (msg & bb & _ & _ & _ & Ul & Wc & _). eapply ST; eassumption. }
    destruct (serve cf R pr chain issuer serial ski l w1) as [rs2 w2] eqn:E2. injection H as <- <-.
    destruct (IH _ _ _ Hr1 Hb2 E2) as [Hr2 [(bs & Hc & ->)|(l1 & cn2 & l2 & bs & w3 & -> & Hc & -> & D)]]; (split; [exact Hr2|]).
    + left. exists (answer_bytes cf r0 out :: bs). split; [econstructor; eassumption|reflexivity].
    + right. exists (cn :: l1), cn2, l2, (answer_bytes cf r0 out :: bs), w3. split; [reflexivity|].
      split; [econstructor; eassumption|]. split; [reflexivity|exact D].
  - injection H as <- <-.
    assert (D : reachable cf (w_st w1) /\ ((forall loc cmd, ~ brings cf cn loc cmd) /\ w1 = w \/
        cn_open cn = false /\ exists loc cmd r out, brings cf cn loc cmd /\ runs_to cf R pr chain issuer serial ski cmd loc w r out w1)).
    { destruct (handle_spec cf Hcf R pr chain issuer serial ski HC HF cn w _ w1 Hr Hb1 E) as [H1 H2].
      destruct (brings_dec cf cn Hb1) as [(loc & c & Bg)|N]; [|rewrite (K3 N); auto].
      destruct (K2 _ _ Bg) as (r0 & out & X & NC & Y). split.
      - destruct Bg as (m2 & bb & _ & _ & _ & Ul & Wc & _). eapply ST; eassumption.
      - right. split; [|eauto 8]. destruct (cn_open cn); [|reflexivity]. specialize (Y eq_refl). discriminate. }
    destruct D as [D1 D2]. split; [exact D1|]. right. exists [], cn, l, [], w. split; [reflexivity|]. split; [constructor|]. split; [reflexivity|exact D2].
Qed.
Print Assumptions C50_conversation.

(** A client can end the simulator in every state: with less than four bytes, or with
    bytes that are no request. *)
Theorem C50_robust_refuted :
  exists l, Forall (fun cn => exists msg, cn_read cn = Some msg /\ all_bytes msg /\ cn_open cn = true) l /\
    forall cf R (pr : primitives R) chain issuer serial ski w cn, In cn l ->
      handle_request cf R pr chain issuer serial ski cn w = (Panicked, w).
Proof.
  exists [{| cn_read := Some [1; 2; 3]; cn_open := true |}; {| cn_read := Some [0; 0; 0; 0; 68; 80; 69; 67]; cn_open := true |}].
  split; [repeat constructor; eexists; split; try reflexivity; split; try reflexivity; repeat constructor; reflexivity|].
  intros cf R pr chain issuer serial ski w cn [<-|[<-|[]]].
  - unfold handle_request. cbn [cn_read length]. rewrite (proj2 (Nat.ltb_lt _ _)); [reflexivity|]. pose proof sim_buf_4. lia.
  - unfold handle_request. cbn [cn_read cn_open length].
    replace (Nat.min 8 sim_buf) with 8%nat by (change sim_buf with (N.to_nat 4096); lia).
    assert (E : forall z, firstn (8 - 4) (skipn 4 (firstn sim_buf ([0; 0; 0; 0; 68; 80; 69; 67] ++ repeat 0 z))) = [68; 80; 69; 67]).
    { intros z. replace sim_buf with (8 + N.to_nat 4088)%nat by (change sim_buf with (N.to_nat 4096); lia). reflexivity. }
    rewrite E. reflexivity.
Qed.
Print Assumptions C50_robust_refuted.

(** A rotation is answered with the new handle, a destruction from another locality with
    an error; three bytes end the simulator, and the last client is not served. *)
Definition sim_all : sim_args :=
  {| sa_simulation := true; sa_recursive := true; sa_auto_init := true; sa_rotate_context := true; sa_x509 := true; sa_csr := true;
     sa_internal_info := true; sa_internal_dice := true; sa_retain_parent_context := true; sa_cdi_export := true; sa_critical := true |}.
Definition toy_start := snd (sim_start toy_cf N toy_pr ref_chain [48; 0] [1; 2] (repeat 7 20) sim_all 3).
Definition toy_client (b : bytes) : connection := {| cn_read := Some b; cn_open := true |}.
Definition sim_rotate : bytes := [0; 0; 0; 0] ++ [67; 69; 80; 68] ++ [14; 0; 0; 0] ++ [3; 0; 0; 0] ++ H0 ++ [0; 0; 0; 0].
Definition sim_destroy : bytes := [9; 0; 0; 0] ++ [67; 69; 80; 68] ++ [15; 0; 0; 0] ++ [3; 0; 0; 0] ++ repeat 4 16.
Example C50_case :
  config_ok toy_cf /\ chain_fits ref_chain /\ (length ref_chain < 2048 * (fuel toy_cf - 1))%nat /\
  reachable toy_cf (w_st toy_start) /\
  brings toy_cf (toy_client sim_rotate) 0 (CmdRotateCtx H0 0) /\
  fst (serve toy_cf N toy_pr ref_chain [48; 0] [1; 2] (repeat 7 20)
         (map toy_client [sim_rotate; sim_destroy; [1; 2; 3]; sim_rotate]) toy_start) =
  [Answered ([82; 69; 80; 68] ++ [0; 0; 0; 0] ++ [3; 0; 0; 0] ++ repeat 4 16);
   Answered ([82; 69; 80; 68] ++ [129; 0; 0; 0] ++ [3; 0; 0; 0]); Panicked].
Proof.
  split; [exact toy_cf_ok|]. split; [discriminate|]. split; [cbn [length ref_chain toy_cf fuel]; lia|]. split.
  { destruct (C50_start toy_cf N toy_pr ref_chain [48; 0] [1; 2] (repeat 7 20) sim_all 3 toy_cf_ok) as (w & E & Hr & _).
    unfold toy_start. rewrite E. exact Hr. }
  split.
  { exists sim_rotate, (skipn 4 sim_rotate). split; [reflexivity|]. split; [repeat constructor|]. split; [vm_compute; reflexivity|].
    split; [reflexivity|]. split; [vm_compute; repeat split; repeat constructor|]. split; [exact I|].
    exists 3, []. split; [vm_compute; reflexivity|]. split; [reflexivity|]. right. reflexivity. }
  vm_compute. reflexivity.
Qed.
