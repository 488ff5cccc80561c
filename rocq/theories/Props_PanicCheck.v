(** Props_PanicCheck.v -- what the program behind the panic check does and how far any
    request could drive it: C58. *)
From Verif Require Import Base Errors Types StateOps Env Wire Instance Commands Response X509 X509Cert PanicCheck Lib Spec Exec Effects
  Forest History WireSpec Reach Steps Codec Responses Execute X509Sane PanicProofs Props_Codec.
Open Scope N_scope.

(** ** Vocabulary *)

(** [request_answered cf ph loc b r ph']: request [b] of locality [loc] in phase [ph] is
    answered by [r] and leads to [ph'].  What cannot be read is refused without a
    response; a command that is refused is answered by an error response; what succeeds
    has a response of its own type with status 0. *)
Definition request_answered (cf : config) (ph : phase) (loc : N) (b : bytes) (r : result response) (ph' : phase) : Prop :=
  match deserialize_command cf b with
  | Ok cmd =>
      match next_phase ph loc cmd with
      | Some p => ph' = p /\ exists resp, r = Ok resp /\ answers cf cmd resp /\
          response_hdr_of resp = {| rh_magic := 0x44504552; rh_status := 0; rh_profile := prof cf |}
      | None => ph' = ph /\ exists e,
          r = Ok (RespError {| rh_magic := 0x44504552; rh_status := get_error_code e; rh_profile := prof cf |})
      end
  | Err e => ph' = ph /\ r = Err e
  | Crash _ => False
  end.

Inductive all_answered (cf : config) : phase -> list (N * bytes) -> list (result response) -> phase -> Prop :=
| aa_nil ph : all_answered cf ph [] [] ph
| aa_cons ph loc b r ph1 l rs ph2 :
    request_answered cf ph loc b r ph1 -> all_answered cf ph1 l rs ph2 ->
    all_answered cf ph ((loc, b) :: l) (r :: rs) ph2.

(** A request the DPE may be given. *)
Definition sendable (q : N * bytes) : Prop := u32 (fst q) /\ all_bytes (snd q).

(** ** C58 *)

(** The program as it is: whatever the byte, no command is executed. *)
Theorem C58_main : forall cf b, firmware_main cf b = Some (Err InvalidCommand, firmware_start cf).
Proof. intros cf b. reflexivity. Qed.
Print Assumptions C58_main.

(** More generally a request shorter than the command header never executes a command,
    in any world. *)
Theorem C58_short : forall cf loc b w, (length b < 12)%nat ->
  firmware_serve cf loc b w = (Err InvalidCommand, w).
Proof.
  intros cf loc b w L. unfold firmware_serve, execute_serialized_command, bind, lift.
  enough (deserialize_command cf b = Err InvalidCommand) as -> by reflexivity.
  unfold deserialize_command, parse_command_hdr.
  repeat (destruct b as [|? b]; [reflexivity|]). cbn [length] in L. lia.
Qed.
Print Assumptions C58_short.

(** One command, from any state of a phase. *)
Theorem C58_commands : forall cf ph cmd loc w r w',
  config_ok cf -> wf cf (w_st w) -> in_phase cf ph (w_st w) -> (N.to_nat (wire_size cf cmd) <= length (w_out w))%nat ->
  exec_command cf unit unit dummy_crypto dummy_platform (x509_gen cf unit unit dummy_crypto dummy_platform) cmd loc w = (r, w') ->
  match next_phase ph loc cmd with
  | Some ph' => (exists n, r = Ok n) /\ in_phase cf ph' (w_st w')
  | None => (exists e, r = Err e) /\ w_st w' = w_st w
  end.
Proof. intros cf ph cmd loc w r w' Hcf. apply phase_step. exact Hcf. Qed.
Print Assumptions C58_commands.

Lemma serve_answered cf ph loc b w r w' :
  config_ok cf -> u32 loc -> all_bytes b -> wf cf (w_st w) -> in_phase cf ph (w_st w) -> firmware_serve cf loc b w = (r, w') ->
  exists ph', request_answered cf ph loc b r ph' /\ wf cf (w_st w') /\ in_phase cf ph' (w_st w').
Proof.
  intros Hcf Hl Hb W HP H. unfold firmware_serve in H. unfold request_answered.
  pose proof (serialized_spec _ _ _ _ _ _ _ _ _ _ _ W H) as X.
  destruct (C22_rejects cf b Hb) as (_ & _ & NC & _).
  destruct (deserialize_command cf b) as [cmd|e|k] eqn:D; [|destruct X as [-> ->]; exists ph; auto|destruct (NC k eq_refl)].
  apply (deserialize_ok cf b cmd Hb) in D as (Wc & _). destruct X as (r0 & X & Y).
  destruct (execute_spec cf Hcf _ _ _ _ _ (x509_sane cf dummy_crypto dummy_platform) _ _ _ _ _ W Wc X) as (r1 & w1 & E & -> & Z).
  set (wi := mkWorld (w_st w) (w_c w) (w_p w) (repeat 0 (N.to_nat (wire_size cf cmd)))) in *.
  assert (W' : wf cf (w_st w1)).
  { apply (executes_wf cf Hcf (dummy_env cf) cmd loc (w_st w) r1); auto. destruct w1 as [s1 c1 p1 o1].
    exists (w_c w), (w_p w), (repeat 0 (N.to_nat (wire_size cf cmd))), c1, p1, o1. exact E. }
  pose proof (phase_step cf Hcf ph cmd loc wi r1 w1 W HP) as S.
  assert (LW : (N.to_nat (wire_size cf cmd) <= length (w_out wi))%nat) by (cbn [w_out wi]; rewrite repeat_length; lia).
  specialize (S LW E). cbn [w_st].
  destruct (next_phase ph loc cmd) as [p|].
  - destruct S as [(n & ->) S]. destruct Z as (resp & -> & A & _ & B). subst r. exists p. split; [|auto]. split; [reflexivity|]. eauto.
  - destruct S as [(e & ->) S]. subst r0 r. exists ph. split; [split; [reflexivity|eauto]|]. split; [exact W'|]. rewrite S. exact HP.
Qed.

(** Any number of requests of any length from any locality. *)
Theorem C58_requests : forall cf l, config_ok cf -> Forall sendable l ->
  exists ph, all_answered cf Fresh l (fst (firmware_serves cf l (firmware_start cf))) ph /\
             in_phase cf ph (w_st (snd (firmware_serves cf l (firmware_start cf)))).
Proof.
  intros cf l Hcf F.
  assert (G : forall ph w, wf cf (w_st w) -> in_phase cf ph (w_st w) ->
    exists ph', all_answered cf ph l (fst (firmware_serves cf l w)) ph' /\ in_phase cf ph' (w_st (snd (firmware_serves cf l w)))).
  { induction F as [|[loc b] l [Hl Hb] _ IH]; intros ph w W HP; [exists ph; split; [constructor|exact HP]|].
    cbn [firmware_serves]. destruct (firmware_serve cf loc b w) as [r w1] eqn:E.
    destruct (serve_answered cf ph loc b w r w1 Hcf Hl Hb W HP E) as (p1 & A & W1 & P1).
    destruct (IH p1 w1 W1 P1) as (p2 & B & P2). destruct (firmware_serves cf l w1) as [rs w2]. cbn [fst snd] in *.
    exists p2. split; [econstructor; eauto|exact P2]. }
  apply (G Fresh (firmware_start cf)); [apply wf_new|apply fresh_start].
Qed.
Print Assumptions C58_requests.

(** The code the check can reach through this back end: nothing but GetProfile,
    InitializeContext and DestroyContext ever succeeds, the last two at most once, and
    nothing panics. *)
Definition is_init (r : result response) : bool := match r with Ok (RespInitCtx _ _) => true | _ => false end.
Definition is_destroy (r : result response) : bool := match r with Ok (RespDestroyCtx _) => true | _ => false end.
Definition harmless (r : result response) : Prop :=
  match r with
  | Ok (RespGetProfile _ _ _ _ _ _ _) | Ok (RespInitCtx _ _) | Ok (RespDestroyCtx _) | Ok (RespError _) | Err _ => True
  | _ => False
  end.
Definition inits_left (ph : phase) : nat := match ph with Fresh => 1 | _ => 0 end.
Definition destroys_left (ph : phase) : nat := match ph with Gone => 0 | _ => 1 end.
Definition count (f : result response -> bool) (rs : list (result response)) : nat := length (filter f rs).

Lemma one_answered cf ph loc b r ph1 : request_answered cf ph loc b r ph1 ->
  harmless r /\ (count is_init [r] + inits_left ph1 <= inits_left ph)%nat /\ (count is_destroy [r] + destroys_left ph1 <= destroys_left ph)%nat.
Proof.
  unfold request_answered, count. destruct (deserialize_command cf b) as [cmd|e|k]; [|intros [-> ->]; cbn; auto|intros []].
  destruct (next_phase ph loc cmd) as [p|] eqn:E; [|intros (-> & e & ->); cbn; auto].
  intros (-> & resp & -> & (_ & A) & _).
  destruct cmd as [|f|d|c|c|h f|h|o sz|u]; cbn [next_phase] in E; try discriminate.
  - injection E as <-. destruct resp; try contradiction. cbn; auto.
  - destruct ph; try discriminate. destruct (N.testbit f 30 && negb (N.testbit f 31)); [|discriminate]. injection E as <-.
    destruct resp; try contradiction. cbn; auto.
  - destruct ph as [|l|]; try discriminate. destruct (list_eq_dec N.eq_dec h (repeat 0 16)); [|discriminate].
    destruct (N.eqb loc l); [|discriminate]. injection E as <-. destruct resp; try contradiction. cbn; auto.
Qed.

Theorem C58_reach : forall cf l, config_ok cf -> Forall sendable l ->
  let rs := fst (firmware_serves cf l (firmware_start cf)) in
  length rs = length l /\ Forall harmless rs /\ (count is_init rs <= 1)%nat /\ (count is_destroy rs <= count is_init rs)%nat.
Proof.
  intros cf l Hcf F rs. destruct (C58_requests cf l Hcf F) as (ph & A & _). fold rs in A. clearbody rs.
  assert (G : forall p q, all_answered cf p l rs q ->
    length rs = length l /\ Forall harmless rs /\ (count is_init rs + inits_left q <= inits_left p)%nat /\
    (count is_destroy rs <= count is_init rs + match p with Live _ => 1 | _ => 0 end)%nat).
  { clear A F ph. intros p q A. induction A as [ph|ph loc b r ph1 l rs ph2 H A IH]; [cbn; repeat split; auto; lia|].
    destruct IH as (I1 & I2 & I3 & I4). destruct (one_answered _ _ _ _ _ _ H) as (J1 & J2 & J3).
    assert (C : forall f, count f (r :: rs) = (count f [r] + count f rs)%nat).
    { intros f. unfold count. cbn [filter]. destruct (f r); reflexivity. }
    rewrite !C. cbn [length]. split; [lia|]. split; [constructor; assumption|]. split; [lia|].
    assert (K : (count is_destroy [r] + match ph1 with Live _ => 1 | _ => 0 end <= count is_init [r] + match ph with Live _ => 1 | _ => 0 end)%nat); [|lia].
    unfold request_answered in H. destruct (deserialize_command cf b) as [cmd|e|k]; [|destruct H as [-> ->]; cbn; lia|destruct H].
    destruct (next_phase ph loc cmd) as [p|] eqn:E; [|destruct H as (-> & e & ->); cbn; lia].
    destruct H as (-> & resp & -> & (_ & X) & _).
    destruct cmd as [|f|d|c|c|h f|h|o sz|u]; cbn [next_phase] in E; try discriminate.
    - injection E as <-. destruct resp; try contradiction. cbn; lia.
    - destruct ph; try discriminate. destruct (N.testbit f 30 && negb (N.testbit f 31)); [|discriminate]. injection E as <-.
      destruct resp; try contradiction. cbn; lia.
    - destruct ph as [|l0|]; try discriminate. destruct (list_eq_dec N.eq_dec h (repeat 0 16)); [|discriminate].
      destruct (N.eqb loc l0); [|discriminate]. injection E as <-. destruct resp; try contradiction. cbn; lia. }
  destruct (G _ _ A) as (G1 & G2 & G3 & G4). cbn [inits_left] in G3. repeat split; auto; lia.
Qed.
Print Assumptions C58_reach.

(** Non-vacuity: all three phases, with refusals in between -- an unreadable request, a
    RotateContext, a destroy from the wrong locality, a second InitializeContext. *)
Definition check_cf : config :=
  {| max_handles := 24; feat_p256 := false; feat_p384 := true; feat_mldsa := false; prof := firmware_profile true false; fuel := 30 |}.
Lemma check_cf_ok : config_ok check_cf.
Proof. unfold config_ok; cbn. repeat split; lia. Qed.
Definition check_requests : list (N * bytes) :=
  [(1, [7]);
   (1, serialize_command check_cf CmdGetProfile);
   (1, serialize_command check_cf (CmdRotateCtx (repeat 0 16) 0));
   (5, serialize_command check_cf (CmdInitCtx (2 ^ 30)));
   (1, serialize_command check_cf (CmdInitCtx (2 ^ 30)));
   (1, serialize_command check_cf (CmdDestroyCtx (repeat 0 16)));
   (5, serialize_command check_cf (CmdDestroyCtx (repeat 0 16)));
   (5, serialize_command check_cf (CmdDestroyCtx (repeat 0 16)))].
Definition status_of (r : result response) : option N :=
  match r with Ok resp => Some (rh_status (response_hdr_of resp)) | _ => None end.

Example C58_sendable : Forall sendable check_requests.
Proof. repeat constructor. Qed.
Example C58_case :
  map status_of (fst (firmware_serves check_cf check_requests (firmware_start check_cf))) =
  [None; Some 0; Some 2; Some 0; Some 131; Some 129; Some 0; Some 129].
Proof. vm_compute. reflexivity. Qed.
Example C58_case_counts :
  let rs := fst (firmware_serves check_cf check_requests (firmware_start check_cf)) in
  (count is_init rs, count is_destroy rs) = (1, 1)%nat.
Proof. vm_compute. reflexivity. Qed.
