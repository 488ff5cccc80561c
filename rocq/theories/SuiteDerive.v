(** SuiteDerive.v -- the tests of DeriveContext of the verification suite that need no
    certificate (verification/testing/deriveContext.go), the test of signing in a simulation
    context (sign.go), and the targets made for one such test (simulator.go).  Complaints are
    known by their lines, as in Suite.v. *)
From Verif Require Import Base Errors Types StateOps Env Wire Instance Commands Response X509 X509Cert RustCrypto DefaultPlatform Simulator GoClient Suite.
Open Scope N_scope.

(** abi.go:230-242: the flags used besides those of Suite.v. *)
Definition RetainParent : N := 2 ^ 29.
Definition MakeDefault : N := 2 ^ 28.
Definition ChangeLocality : N := 2 ^ 27.
Definition AllowExport : N := 2 ^ 26.
Definition Recursive : N := 2 ^ 24.
Definition CdiExport : N := 2 ^ 23.
Definition CreateCertificate : N := 2 ^ 22.
Definition AllowRecursive : N := 2 ^ 21.

Section SuiteDerive.
  Variable T : Type.
  Variable send : N -> bytes -> T -> option bytes * T.
  Variable sup : go_support.
  Variable c : go_client.
  Notation test := (test T).
  Notation bench := (bench T).
  Notation call := (call T send c).
  Notation must_fail := (must_fail T send c).
  Notation ignore := (ignore T send c).

  (** A part of a test with variables [V] that deferred functions see. *)
  Definition vtest (V A : Type) := V -> bench -> option A * list complaint * V * bench.
  Definition vlift {V A} (m : test A) : vtest V A := fun v b => match m b with (r, l, b1) => (r, l, v, b1) end.
  Definition vthen {V A B} (m : vtest V A) (f : A -> vtest V B) : vtest V B := fun v b =>
    match m v b with
    | (Some a, l, v1, b1) => match f a v1 b1 with (r, l2, v2, b2) => (r, l ++ l2, v2, b2) end
    | (None, l, v1, b1) => (None, l, v1, b1)
    end.
  Definition vget {V} : vtest V V := fun v b => (Some v, [], v, b).
  Definition vset {V} (v' : V) : vtest V unit := fun _ b => (Some tt, [], v', b).
  (** [defer]: run when [m] ends or was stopped, with the variables as they are then. *)
  Definition vfinally {V A} (m : vtest V A) (d : V -> test unit) : vtest V A := fun v b =>
    match m v b with (r, l, v1, b1) => match d v1 b1 with (_, l2, b2) => (r, l ++ l2, v1, b2) end end.
  Definition local {V A} (v0 : V) (m : vtest V A) : test A := fun b => match m v0 b with (r, l, _, b1) => (r, l, b1) end.

  (** A call of DeriveContext that must succeed: the new handle and the parent's. *)
  Definition must_derive (q : go_call) (line : N) : test (bytes * bytes) :=
    andthen T (call q) (fun r =>
      match r with
      | GoOk (VDerived x y _ _ _) => done T (x, y)
      | GoErr _ => stopped T line
      | _ => crashed T
      end).
  (** The same with [t.Errorf]: the response is used all the same, and is nil. *)
  Definition should_derive (q : go_call) (line : N) : test (bytes * bytes) :=
    andthen T (call q) (fun r =>
      match r with
      | GoOk (VDerived x y _ _ _) => done T (x, y)
      | GoErr _ => andthen T (failed T line) (fun _ => crashed T)
      | _ => crashed T
      end).
  (** A call whose failure is a complaint. *)
  Definition should (q : go_call) (line : N) : test unit :=
    andthen T (call q) (fun r => match r with GoErr _ => failed T line | GoOk _ => done T tt | _ => crashed T end).
  (** t.Skip. *)
  Definition quit {A} : test A := fun b => (None, [], b).
  Definition zeros (p : N) : bytes := repeat 0 (profile_digest_size p).
  Notation "x <- m ;; k" := (vthen m (fun x => k)) (at level 61, m at next level, right associativity).
  Notation "m ;;; k" := (vthen m (fun _ => k)) (at level 61, right associativity).

  (** deriveContext.go:18-75 [TestDeriveContext]. *)
  Definition test_derive : test unit :=
    andthen T (initial_handle T send sup c false) (fun h0 => local h0
    (vfinally
      (p <- vlift (transport_profile T send c 30) ;;
       let d := zeros p in
       r1 <- vlift (should_derive (GcDerive h0 d MakeDefault 0 0) 37) ;;
       let h1 := fst r1 in
       vset h1 ;;;
       vlift (must T (same_handle h1 DefaultContextHandle) 41) ;;;
       vlift (must_fail (GcDerive h1 d (N.lor MakeDefault RetainParent) 0 0) [StatusInvalidArgument] 47 49) ;;;
       vlift (must_fail (GcDerive h1 d RetainParent 0 0) [StatusInvalidArgument] 56 58) ;;;
       r2 <- vlift (should_derive (GcDerive h1 d 0 0 0) 63) ;;
       let h2 := fst r2 in
       vset h2 ;;;
       vlift (must T (negb (same_handle h2 DefaultContextHandle)) 67) ;;;
       r3 <- vlift (should_derive (GcDerive h2 d RetainParent 0 0) 72) ;;
       vset (fst r3))
      (fun h => ignore (GcDestroy h)))).

  (** deriveContext.go:130-151 [TestDeriveContextDisallowedChildCdiExport]. *)
  Definition test_disallowed_export : test unit :=
    andthen T (initial_handle T send sup c false) (fun h =>
    finally T
      (andthen T (transport_profile T send c 139) (fun p =>
       andthen T (must_derive (GcDerive h (zeros p) 0 0 0) 144) (fun r =>
       andthen T (call (GcDerive (fst r) (zeros p) (N.lor CdiExport CreateCertificate) 0 0)) (fun v =>
       match v with GoErr _ => done T tt | GoOk _ => stopped T 149 | _ => crashed T end))))
      (ignore (GcDestroy h))).

  (** deriveContext.go:213-254 [TestChangeLocality]. *)
  Definition test_change_locality : test unit :=
    andthen T (initial_handle T send sup c false) (fun h0 => local h0
    (vfinally
      (p <- vlift (transport_profile T send c 232) ;;
       l <- vlift (where_now T) ;;
       let other := (l + 1) mod 2 ^ 32 in
       r1 <- vlift (must_derive (GcDerive h0 (zeros p) ChangeLocality 0 other) 241) ;;
       vset (fst r1) ;;;
       vlift (move T other) ;;;
       r2 <- vlift (must_derive (GcDerive (fst r1) (zeros p) ChangeLocality 0 l) 250) ;;
       vset (fst r2) ;;;
       vlift (move T l))
      (fun h => should (GcDestroy h) 225))).

  (** deriveContext.go:258-291 [TestInternalInputFlags]. *)
  Definition test_internal_flags : test unit :=
    andthen T (initial_handle T send sup c false) (fun h0 => local h0
    (vfinally
      (p <- vlift (transport_profile T send c 269) ;;
       h1 <- (if gs_internal_dice sup
              then r <- vlift (should_derive (GcDerive h0 (zeros p) InternalInputDice 0 0) 276) ;; vset (fst r) ;;; vlift (done T (fst r))
              else vlift quit) ;;
       if gs_internal_info sup
       then r <- vlift (should_derive (GcDerive h1 (zeros p) InternalInputInfo 0 0) 285) ;; vset (fst r)
       else vlift quit)
      (fun h => ignore (GcDestroy h)))).

  (** deriveContext.go:295-336 [TestPrivilegesEscalation]. *)
  Definition test_privileges : test unit :=
    andthen T (initial_handle T send sup c false) (fun h0 =>
    andthen T (transport_profile T send c 303) (fun p =>
    andthen T (must_derive (GcDerive h0 (zeros p) 0 0 0) 314) (fun r =>
    andthen T (must_fail (GcDerive (fst r) (zeros p) InputAllowX509 0 0) [StatusInvalidArgument] 324 326) (fun _ =>
    must_fail (GcCertify (fst r) (zeros p) 0 0) [StatusInvalidArgument] 332 334)))).

  (** deriveContext.go:391-469 [TestDeriveContextSimulation]. *)
  Definition test_derive_simulation : test unit :=
    andthen T (initial_handle T send sup c true) (fun h0 => local h0
    (vfinally
      (p <- vlift (transport_profile T send c 406) ;;
       let d := zeros p in
       l <- vlift (where_now T) ;;
       let other := (l + 1) mod 2 ^ 32 in
       vlift (must_fail (GcDerive h0 d MakeDefault 0 0) [StatusInvalidArgument] 416 418) ;;;
       r1 <- vlift (must_derive (GcDerive h0 d (N.lor (N.lor ChangeLocality RetainParent) MakeDefault) 0 other) 429) ;;
       vset (fst r1) ;;;
       vfinally
         (vlift (move T other) ;;;
          vfinally
            (vlift (must_fail (GcDerive (fst r1) d RetainParent 0 0) [StatusInvalidArgument] 459 461) ;;;
             r2 <- vlift (must_derive (GcDerive (fst r1) d RetainParent 0 0) 466) ;;
             vset (fst r2))
            (fun h => andthen T (should (GcDestroy h) 449) (fun _ => move T l)))
         (fun _ => should (GcDestroy (snd r1)) 439))
      (fun h => ignore (GcDestroy h)))).

  (** deriveContext.go:655-709 [TestDeriveContextInputTypeUniqueness]. *)
  Definition test_type_uniqueness : test unit :=
    andthen T (initial_handle T send sup c false) (fun h0 =>
    andthen T (transport_profile T send c 661) (fun p =>
    let d := zeros p in
    andthen T (must_handle T send c (GcRotate h0 0) 670) (fun h => local h
    (vfinally
      (r1 <- vlift (must_derive (GcDerive h d RetainParent 0xABCD1234 0) 685) ;;
       let h1 := snd r1 in
       vset h1 ;;;
       vfinally
         (vlift (must_fail (GcDerive h1 d RetainParent 0xABCD1234 0) [StatusInvalidArgument] 694 696) ;;;
          r2 <- vlift (call (GcDerive h1 d RetainParent 0xDEADBEEF 0)) ;;
          match r2 with
          | GoOk (VDerived x y _ _ _) => vset y ;;; vlift (ignore (GcDestroy x))
          | GoErr _ => vlift (failed T 703)
          | _ => vlift (crashed T)
          end)
         (fun _ => ignore (GcDestroy (fst r1))))
      (fun h => should (GcRotate h TargetIsDefault) 676))))).

  (** deriveContext.go:713-779 [TestDeriveContextAllowRecursive].  The variables are the
      parent's handle and that of the second child. *)
  Definition test_allow_recursive : test unit :=
    andthen T (initial_handle T send sup c false) (fun h0 =>
    andthen T (transport_profile T send c 719) (fun p =>
    let d := zeros p in
    andthen T (must_handle T send c (GcRotate h0 0) 728) (fun h => local (h, @nil N)
    (vfinally
      (r1 <- vlift (must_derive (GcDerive h d RetainParent 1 0) 742) ;;
       vset (snd r1, []) ;;;
       vfinally
         (vlift (must_fail (GcDerive (fst r1) d Recursive 1 0) [StatusInvalidArgument] 750 752) ;;;
          r2 <- vlift (must_derive (GcDerive (snd r1) d (N.lor RetainParent AllowRecursive) 2 0) 759) ;;
          vset (snd r2, fst r2) ;;;
          vfinally
            (r3 <- vlift (call (GcDerive (fst r2) d Recursive 2 0)) ;;
             b <- match r3 with
                  | GoOk (VDerived x _ _ _ _) => vset (snd r2, x) ;;; vlift (done T x)
                  | GoErr _ => vlift (andthen T (failed T 767) (fun _ => done T (fst r2)))
                  | _ => vlift (crashed T)
                  end ;;
             vlift (must_fail (GcDerive b d (N.lor AllowRecursive Recursive) 2 0) [StatusInvalidArgument] 775 777))
            (fun v => ignore (GcDestroy (snd v))))
         (fun _ => ignore (GcDestroy (fst r1))))
      (fun v => should (GcRotate (fst v) TargetIsDefault) 734))))).

  (** sign.go:109-130 [TestSignSimulation]. *)
  Definition test_sign_simulation : test unit :=
    andthen T (initial_handle T send sup c true) (fun h =>
    finally T
      (andthen T (transport_profile T send c 119) (fun p =>
       must_fail_fatal T send c (GcSign h (zeros p) 0 (repeat 0 (profile_sign_data_size p))) [StatusInvalidArgument] 126 128))
      (ignore (GcDestroy h))).

  (** verification.go:114-170: the cases, with what they need. *)
  Inductive derive_case :=
  | CaseDerive | CaseDisallowedExport | CaseChangeLocality | CaseInternalFlags | CasePrivileges
  | CaseDeriveSimulation | CaseTypeUniqueness | CaseAllowRecursive | CaseSignSimulation.
  Definition derive_program (x : derive_case) : test unit :=
    match x with
    | CaseDerive => test_derive
    | CaseDisallowedExport => test_disallowed_export
    | CaseChangeLocality => test_change_locality
    | CaseInternalFlags => test_internal_flags
    | CasePrivileges => test_privileges
    | CaseDeriveSimulation => test_derive_simulation
    | CaseTypeUniqueness => test_type_uniqueness
    | CaseAllowRecursive => test_allow_recursive
    | CaseSignSimulation => test_sign_simulation
    end.
  Definition derive_needs (x : derive_case) : list (go_support -> bool) :=
    match x with
    | CaseDerive => [gs_auto_init; gs_retain_parent_context]
    | CaseDisallowedExport => [gs_cdi_export]
    | CaseChangeLocality => [gs_auto_init]
    | CaseInternalFlags => [gs_auto_init; gs_internal_dice; gs_internal_info]
    | CasePrivileges => [gs_auto_init; gs_x509]
    | CaseDeriveSimulation => [gs_auto_init; gs_simulation; gs_x509; gs_internal_dice; gs_internal_info; gs_retain_parent_context]
    | CaseTypeUniqueness => [gs_auto_init; gs_retain_parent_context; gs_rotate_context]
    | CaseAllowRecursive => [gs_auto_init; gs_recursive; gs_retain_parent_context; gs_rotate_context]
    | CaseSignSimulation => [gs_simulation]
    end.
  (** verification.go:236-244 for one test. *)
  Definition run_case (x : derive_case) (b : bench) : outcome * bench :=
    if forallb (fun f => f sup) (derive_needs x)
    then match derive_program x b with (_, cs, b1) => (Ran cs, b1) end
    else (Skipped, b).
End SuiteDerive.

(** verification.go:214-245 [RunTargetTestCases] for a target with one test. *)
Definition run_single (T : Type) (send : N -> bytes -> T -> option bytes * T) (sup : go_support) (x : derive_case) (t : T)
  : option (outcome * bench T) :=
  match go_get_profile T (send SimAutoInitLocality) t with
  | (GoOk (VProfile p _ _ _ _ _ _), t1) =>
      match kind_for p with
      | Some k =>
          match go_new T (send SimAutoInitLocality) k t1 with
          | (GoOk c, t2) => Some (run_case T send sup c x {| bn_device := t2; bn_locality := SimAutoInitLocality; bn_initialized := false |})
          | _ => None
          end
      | None => None
      end
  | _ => None
  end.
(** simulator.go:16-32: the support of a target from the names of its features. *)
Definition no_support : go_support :=
  {| gs_simulation := false; gs_recursive := false; gs_auto_init := false; gs_rotate_context := false; gs_x509 := false; gs_csr := false;
     gs_is_symmetric := false; gs_internal_info := false; gs_internal_dice := false; gs_retain_parent_context := false; gs_cdi_export := false; gs_critical := false |}.
(** simulator.go:124-127, 139-142, 149-152, 154-157, 159-162, 169-172, 184-187, 189-192: the
    targets with one test of those above.  TestSignSimulation has none of its own. *)
Definition single_target (x : derive_case) : option go_support :=
  let with_support (sim rec rot x5 info dice retain export : bool) :=
    Some {| gs_simulation := sim; gs_recursive := rec; gs_auto_init := true; gs_rotate_context := rot; gs_x509 := x5; gs_csr := false;
            gs_is_symmetric := false; gs_internal_info := info; gs_internal_dice := dice; gs_retain_parent_context := retain;
            gs_cdi_export := export; gs_critical := false |} in
  match x with
  | CaseDerive => with_support false false false true false false true false
  | CaseDisallowedExport => with_support false false false false false false false true
  | CaseDeriveSimulation => with_support true false false true false false true false
  | CasePrivileges => with_support false false false true false false false false
  | CaseInternalFlags => with_support true false false false true true false false
  | CaseChangeLocality => with_support true false false false false false false false
  | CaseAllowRecursive => with_support false true true false false false true false
  | CaseTypeUniqueness => with_support false false true false false false true false
  | CaseSignSimulation => None
  end.
