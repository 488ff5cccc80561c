(** Suite.v -- the tests of the verification suite that check handles, localities, support
    flags and the profile (verification/testing/getProfile.go, initializeContext.go,
    rotateContextHandle.go, negativeCases.go) and the loop that runs the tests of a target
    (verification.go).  A test is a program over a client (GoClient.v).  Texts and logging
    are not modelled: a complaint is known by its line. *)
From Verif Require Import Base Errors Types StateOps Env Wire Instance Commands Response X509 X509Cert RustCrypto DefaultPlatform Simulator GoClient.
Open Scope N_scope.

(** [t.Error], [t.Fatal], which ends the test, and a Go panic. *)
Inductive complaint := Failed (line : N) | Stopped (line : N) | Crashed.

(** abi.go:134-137, 211, 230-236: the flags used. *)
Definition InitIsSimulation : N := 2 ^ 31.
Definition InitIsDefault : N := 2 ^ 30.
Definition TargetIsDefault : N := 2 ^ 31.
Definition InternalInputInfo : N := 2 ^ 31.
Definition InternalInputDice : N := 2 ^ 30.
Definition InputAllowX509 : N := 2 ^ 25.
(** abi.go:15; negativeCases.go:13. *)
Definition DefaultContextHandle : bytes := repeat 0 16.
Definition SuiteInvalidHandle : bytes := [0; 1; 2; 3; 4; 5; 6; 7; 8; 9; 10; 11; 12; 13; 14; 15].
(** errors.go:12-37. *)
Definition StatusInvalidCommand : N := 0x2.
Definition StatusInvalidArgument : N := 0x3.
Definition StatusInvalidHandle : N := 0x80.
Definition StatusInvalidLocality : N := 0x81.
Definition StatusArgumentNotSupported : N := 0x83.

(** sim/transport.go:22-31. *)
Definition SimAutoInitLocality : N := 0.
Definition SimOtherLocality : N := 0x4f544852.
Definition SimMaxTCINodes : N := 64.
Definition SimMajorVersion : N := 0.
Definition SimMinorVersion : N := 13.
Definition SimVendorID : N := 0.
Definition SimVendorSKU : N := 0.

(** profile.go:27-41 [GetDigestSize], 44-59 [GetSignDataSize]. *)
Definition profile_digest_size (p : N) : nat :=
  match p with 1 | 3 => 32%nat | 2 | 4 | 5 => 48%nat | _ => 0%nat end.
Definition profile_sign_data_size (p : N) : nat :=
  match p with 1 | 3 => 32%nat | 2 | 4 => 48%nat | 5 => 64%nat | _ => 0%nat end.

Definition same_handle (a b : bytes) : bool := if list_eq_dec N.eq_dec a b then true else false.
(** [errors.Is(err, status)]. *)
Definition is_status (e : go_error) (st : N) : bool := match e with GoStatus s => N.eqb s st | _ => false end.

Section Suite.
  Variable T : Type.
  (** [SendCmd] in a locality. *)
  Variable send : N -> bytes -> T -> option bytes * T.

  (** sim/transport.go:36-43 [DpeSimulator]: the device behind it, the current locality and
      whether a test initialised it; its support is [sup]. *)
  Record bench := { bn_device : T; bn_locality : N; bn_initialized : bool }.
  Definition set_device (t : T) (b : bench) := {| bn_device := t; bn_locality := bn_locality b; bn_initialized := bn_initialized b |}.
  Definition set_locality (l : N) (b : bench) := {| bn_device := bn_device b; bn_locality := l; bn_initialized := bn_initialized b |}.
  Definition set_initialized (b : bench) := {| bn_device := bn_device b; bn_locality := bn_locality b; bn_initialized := true |}.

  (** A test, or a part of one: [None] if it was stopped. *)
  Definition test (A : Type) := bench -> option A * list complaint * bench.
  Definition done {A} (a : A) : test A := fun b => (Some a, [], b).
  Definition andthen {A B} (m : test A) (f : A -> test B) : test B := fun b =>
    match m b with
    | (Some a, l, b1) => match f a b1 with (r, l2, b2) => (r, l ++ l2, b2) end
    | (None, l, b1) => (None, l, b1)
    end.
  Definition failed (line : N) : test unit := fun b => (Some tt, [Failed line], b).
  Definition stopped {A} (line : N) : test A := fun b => (None, [Stopped line], b).
  Definition crashed {A} : test A := fun b => (None, [Crashed], b).
  (** [defer]: run when [m] ends or was stopped. *)
  Definition finally {A} (m : test A) (d : test unit) : test A := fun b =>
    match m b with (r, l, b1) => match d b1 with (_, l2, b2) => (r, l ++ l2, b2) end end.
  Definition move (l : N) : test unit := fun b => (Some tt, [], set_locality l b).
  Definition where_now : test N := fun b => (Some (bn_locality b), [], b).
  Definition check (c : bool) (line : N) : test unit := if c then done tt else failed line.
  Definition must (c : bool) (line : N) : test unit := if c then done tt else stopped line.

  Variable sup : go_support.
  Variable c : go_client.

  Definition call (q : go_call) : test (go_result go_value) := fun b =>
    let (v, t) := go_do T (send (bn_locality b)) c q (bn_device b) in (Some v, [], set_device t b).
  (** A call whose result is not looked at. *)
  Definition ignore (q : go_call) : test unit := andthen (call q) (fun _ => done tt).

  (** A call that must fail with one of these statuses; the complaint if it does not fail,
      and if it fails otherwise. *)
  Definition must_fail (q : go_call) (sts : list N) (l1 l2 : N) : test unit :=
    andthen (call q) (fun r =>
      match r with
      | GoOk _ => failed l1
      | GoErr e => check (existsb (is_status e) sts) l2
      | _ => crashed
      end).
  Definition must_fail_fatal (q : go_call) (sts : list N) (l1 l2 : N) : test unit :=
    andthen (call q) (fun r =>
      match r with
      | GoOk _ => stopped l1
      | GoErr e => must (existsb (is_status e) sts) l2
      | _ => crashed
      end).
  (** A call that must return a handle. *)
  Definition must_handle (q : go_call) (line : N) : test bytes :=
    andthen (call q) (fun r =>
      match r with
      | GoOk (VHandle h) => done h
      | GoErr _ => stopped line
      | _ => crashed
      end).
  (** client.GetTransportProfile (abi.go:464-471). *)
  Definition transport_profile (line : N) : test N :=
    andthen (call GcGetProfile) (fun r =>
      match r with
      | GoOk (VProfile p _ _ _ _ _ _) => done p
      | GoErr _ => stopped line
      | _ => crashed
      end).

  (** sim/transport.go:186-190 [GetSupportedLocalities]. *)
  Definition for_localities (m : test unit) : test unit :=
    andthen (move SimAutoInitLocality) (fun _ => andthen m (fun _ =>
    andthen (move SimOtherLocality) (fun _ => m))).

  (** initializeContext.go:79-100 [getInitialContextHandle]. *)
  Definition initial_handle (simulation : bool) : test bytes :=
    if simulation then
      if gs_simulation sup then
        andthen (must_handle (GcInit InitIsSimulation) 86) (fun h =>
        andthen (must (negb (same_handle h DefaultContextHandle)) 89) (fun _ => done h))
      else stopped 92
    else done DefaultContextHandle.

  (** getProfile.go:14-45 [TestGetProfile]; 17-44 is the body of its loop. *)
  Definition profile_body : test unit :=
    andthen (call GcGetProfile) (fun r =>
      match r with
      | GoOk (VProfile _ ma mi vi vs mt fl) =>
          andthen (check (N.eqb ma SimMajorVersion) 24) (fun _ =>
          andthen (check (N.eqb mi SimMinorVersion) 27) (fun _ =>
          andthen (check (N.eqb vi SimVendorID) 30) (fun _ =>
          andthen (check (N.eqb vs SimVendorSKU) 33) (fun _ =>
          andthen (check (N.eqb mt SimMaxTCINodes) 36) (fun _ =>
          andthen (check (negb (N.ltb mt 8)) 39) (fun _ =>
          check (N.eqb fl (to_flags sup)) 42))))))
      | GoErr _ => stopped 21
      | _ => crashed
      end).
  Definition test_get_profile : test unit := for_localities profile_body.

  (** initializeContext.go:30-73 [testInitContext]; [GetIsInitialized] is
      sim/transport.go:176-178. *)
  Definition test_init_context (simulation : bool) : test unit :=
    andthen (fun b => (Some (gs_auto_init sup || bn_initialized b)%bool, [], b)) (fun init =>
    andthen (if init then done tt
             else andthen (must_handle (GcInit InitIsDefault) 35) (fun h =>
                  andthen (must (same_handle h (repeat 0 16)) 38) (fun _ =>
                  fun b => (Some tt, [], set_initialized b)))) (fun _ =>
    andthen (must_fail (GcInit InitIsDefault) [StatusArgumentNotSupported; StatusInvalidArgument] 46 48) (fun _ =>
    andthen (must_fail (GcInit 0) [StatusInvalidArgument] 54 56) (fun _ =>
    if simulation then
      andthen (must_handle (GcInit InitIsSimulation) 64) (fun h =>
      finally (must (negb (same_handle h (repeat 0 16))) 70) (ignore (GcDestroy h)))
    else done tt)))).
  (** initializeContext.go:15-20 [TestInitializeContext], 23-28 [TestInitializeSimulation]. *)
  Definition test_initialize : test unit := for_localities (test_init_context false).
  Definition test_initialize_simulation : test unit := for_localities (test_init_context true).

  (** rotateContextHandle.go:13-44 [TestRotateContextHandle]. *)
  Definition test_rotate : test unit :=
    andthen (initial_handle false) (fun h =>
    andthen (must_handle (GcRotate h 0) 20) (fun h1 =>
    andthen (check (negb (same_handle h1 DefaultContextHandle)) 23) (fun _ =>
    andthen (must_handle (GcRotate h1 TargetIsDefault) 30) (fun h2 =>
    andthen (check (same_handle h2 DefaultContextHandle) 33) (fun _ =>
    must_fail_fatal (GcRotate h2 TargetIsDefault) [StatusInvalidArgument] 40 42))))).

  (** rotateContextHandle.go:48-72 [TestRotateContextHandleSimulation].  The deferred
      DestroyContext uses the handle as it is then: nil, so a panic, if the rotation
      failed. *)
  Definition test_rotate_simulation : test unit :=
    andthen (initial_handle true) (fun h =>
    andthen (call (GcRotate h 0)) (fun r =>
    match r with
    | GoOk (VHandle h1) =>
        finally
          (andthen (check (negb (same_handle h1 DefaultContextHandle)) 61) (fun _ =>
           must_fail_fatal (GcRotate h1 TargetIsDefault) [StatusInvalidArgument] 68 70))
          (ignore (GcDestroy h1))
    | GoErr _ => finally (stopped 58) crashed
    | _ => crashed
    end)).

  (** negativeCases.go:19-64 [TestInvalidHandle]. *)
  Definition test_invalid_handle : test unit :=
    andthen (initial_handle true) (fun ctx =>
    finally
      (andthen (transport_profile 25) (fun p =>
       let d := repeat 0 (profile_digest_size p) in
       let x := SuiteInvalidHandle in
       andthen (must_fail (GcDerive x d 0 0 0) [StatusInvalidHandle] 31 33) (fun _ =>
       andthen (must_fail (GcCertify x d 0 0) [StatusInvalidHandle] 38 40) (fun _ =>
       andthen (must_fail (GcSign x d 0 (repeat 0 (profile_sign_data_size p))) [StatusInvalidHandle] 46 48) (fun _ =>
       andthen (must_fail (GcRotate x TargetIsDefault) [StatusInvalidHandle] 53 55) (fun _ =>
       must_fail (GcDestroy x) [StatusInvalidHandle] 60 62))))))
      (ignore (GcDestroy ctx))).

  (** negativeCases.go:70-126 [TestWrongLocality]; the simulator has locality control. *)
  Definition test_wrong_locality : test unit :=
    andthen where_now (fun l =>
    andthen (move ((l + 1) mod 2 ^ 32)) (fun _ =>
    finally
      (andthen (transport_profile 86) (fun p =>
       let d := repeat 0 (profile_digest_size p) in
       let x := DefaultContextHandle in
       andthen (must_fail (GcDerive x d 0 0 0) [StatusInvalidLocality] 93 95) (fun _ =>
       andthen (must_fail (GcCertify x d 0 0) [StatusInvalidLocality] 100 102) (fun _ =>
       andthen (must_fail (GcSign x d 0 (repeat 0 (profile_sign_data_size p))) [StatusInvalidLocality] 108 110) (fun _ =>
       andthen (must_fail (GcRotate x TargetIsDefault) [StatusInvalidLocality] 115 117) (fun _ =>
       must_fail (GcDestroy x) [StatusInvalidLocality] 122 124))))))
      (move l))).

  (** negativeCases.go:132-141 [TestUnsupportedCommand]. *)
  Definition test_unsupported_command : test unit :=
    must_fail (GcRotate DefaultContextHandle TargetIsDefault) [StatusInvalidCommand] 137 139.

  (** negativeCases.go:152-202 [TestUnsupportedCommandFlag]. *)
  Definition test_unsupported_flag : test unit :=
    andthen (transport_profile 157) (fun p =>
    let d := repeat 0 (profile_digest_size p) in
    let x := DefaultContextHandle in
    andthen (must_fail (GcInit InitIsSimulation) [StatusArgumentNotSupported] 163 165) (fun _ =>
    andthen (must_fail (GcCertify x d 1 0) [StatusArgumentNotSupported] 170 172) (fun _ =>
    andthen (must_fail (GcCertify x d 0 0) [StatusArgumentNotSupported] 177 179) (fun _ =>
    andthen (must_fail (GcDerive x d InternalInputInfo 0 0) [StatusArgumentNotSupported] 184 186) (fun _ =>
    andthen (must_fail (GcDerive x d InternalInputDice 0 0) [StatusArgumentNotSupported] 191 193) (fun _ =>
    must_fail (GcDerive x d InputAllowX509 0 0) [StatusArgumentNotSupported] 198 200)))))).

  (** verification.go:29-175: the test cases with the programs above. *)
  Inductive suite_case :=
  | CaseGetProfile | CaseInitialize | CaseInitializeSimulation | CaseRotate | CaseRotateSimulation
  | CaseInvalidHandle | CaseWrongLocality | CaseUnsupportedCommand | CaseUnsupportedFlag.
  Definition case_program (x : suite_case) : test unit :=
    match x with
    | CaseGetProfile => test_get_profile
    | CaseInitialize => test_initialize
    | CaseInitializeSimulation => test_initialize_simulation
    | CaseRotate => test_rotate
    | CaseRotateSimulation => test_rotate_simulation
    | CaseInvalidHandle => test_invalid_handle
    | CaseWrongLocality => test_wrong_locality
    | CaseUnsupportedCommand => test_unsupported_command
    | CaseUnsupportedFlag => test_unsupported_flag
    end.
  (** [SupportNeeded], and transport.go:10-21 [HasSupportNeeded]. *)
  Definition support_needed (x : suite_case) : list (go_support -> bool) :=
    match x with
    | CaseGetProfile | CaseInitialize => []
    | CaseInitializeSimulation => [gs_simulation]
    | CaseRotate | CaseWrongLocality | CaseUnsupportedFlag => [gs_auto_init; gs_rotate_context]
    | CaseRotateSimulation | CaseInvalidHandle => [gs_simulation; gs_rotate_context]
    | CaseUnsupportedCommand => [gs_auto_init]
    end.
  Definition has_support_needed (x : suite_case) : bool := forallb (fun f => f sup) (support_needed x).

  Inductive outcome := Skipped | Ran (l : list complaint).
  Definition is_crash (x : complaint) : bool := match x with Crashed => true | _ => false end.
  (** verification.go:236-244: the loop.  A panic ends the program. *)
  Fixpoint run_cases (l : list suite_case) (b : bench) : list outcome * bench :=
    match l with
    | [] => ([], b)
    | x :: l' =>
        if has_support_needed x then
          match case_program x b with
          | (_, cs, b1) =>
              if existsb is_crash cs then ([Ran cs], b1)
              else let (os, b2) := run_cases l' b1 in (Ran cs :: os, b2)
          end
        else let (os, b2) := run_cases l' b in (Skipped :: os, b2)
    end.
End Suite.

(** client.go:65-80 [NewClient]: which client. *)
Definition kind_for (p : N) : option go_kind :=
  match p with
  | 1 => Some Min256 | 2 => Some Min384 | 3 => Some Full256 | 4 => Some Full384 | 5 => Some FullMldsa
  | _ => None
  end.

(** verification.go:214-245 [RunTargetTestCases] on a target that is on, in the locality
    that getTestTarget (simulator.go:202-206) sets.  [None]: stopped before the tests. *)
Definition run_target (T : Type) (send : N -> bytes -> T -> option bytes * T) (sup : go_support) (l : list suite_case) (t : T)
  : option (list outcome * bench T) :=
  match go_get_profile T (send SimAutoInitLocality) t with
  | (GoOk (VProfile p _ _ _ _ _ _), t1) =>
      match kind_for p with
      | Some k =>
          match go_new T (send SimAutoInitLocality) k t1 with
          | (GoOk c, t2) =>
              Some (run_cases T send sup c l {| bn_device := t2; bn_locality := SimAutoInitLocality; bn_initialized := false |})
          | _ => None
          end
      | None => None
      end
  | _ => None
  end.
