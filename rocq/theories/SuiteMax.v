(** SuiteMax.v -- the test of the largest number of contexts of the verification suite
    (verification/testing/deriveContext.go, simulator.go).  Complaints are known by their
    lines, as in Suite.v. *)
From Verif Require Import Base Errors Types StateOps Env Wire Instance Commands Response X509 X509Cert RustCrypto DefaultPlatform Simulator GoClient Suite SuiteDerive.
Open Scope N_scope.

(** client/errors.go:31. *)
Definition StatusMaxTCIs : N := 0x91.
(** sim/transport.go:26, 210-213 [GetMaxTciNodes]. *)
Definition SimMaxTCINodes : nat := 64.

Section SuiteMax.
  Variable T : Type.
  Variable send : N -> bytes -> T -> option bytes * T.
  Variable sup : go_support.
  Variable c : go_client.
  (** Go's x509.ParseCertificate, which is not modelled: does it accept the octets? *)
  Variable parses : bytes -> bool.
  Notation "x <- m ;; k" := (vthen T m (fun x => k)) (at level 61, m at next level, right associativity).
  Notation "m ;;; k" := (vthen T m (fun _ => k)) (at level 61, right associativity).

  (** deriveContext.go:356-362: the loop.  The variable is the handle. *)
  Fixpoint derive_chain (n : nat) (d : bytes) : vtest T bytes unit :=
    match n with
    | O => vlift T (done T tt)
    | S n' =>
        h <- vget T ;;
        r <- vlift T (must_derive T send c (GcDerive h d InputAllowX509 0 0) 359) ;;
        vset T (fst r) ;;;
        derive_chain n' d
    end.

  (** deriveContext.go:339-388 [TestMaxTCIs]. *)
  Definition test_max_tcis : test T unit :=
    andthen T (initial_handle T send sup c false) (fun h0 => local T h0
    (vfinally T
      (p <- vlift T (transport_profile T send c 349) ;;
       derive_chain (SimMaxTCINodes - 1) (zeros p) ;;;
       h <- vget T ;;
       r <- vlift T (Suite.call T send c (GcCertify h (zeros p) 0 0)) ;;
       match r with
       | GoOk (VKey x _ _ cert) =>
           vset T x ;;;
           vlift T (must T (parses cert) 378) ;;;
           vlift T (must_fail_fatal T send c (GcDerive x (zeros p) 0 0 0) [StatusMaxTCIs] 384 386)
       | GoErr _ => vlift T (stopped T 370)
       | _ => vlift T (crashed T)
       end)
      (fun h => ignore T send c (GcDestroy h)))).

  (** verification.go:135-138 and 236-244 for this test. *)
  Definition run_max (b : bench T) : outcome * bench T :=
    if forallb (fun f => f sup) [gs_auto_init; gs_x509]
    then match test_max_tcis b with (_, cs, b1) => (Ran cs, b1) end
    else (Skipped, b).
End SuiteMax.

(** verification.go:214-245 [RunTargetTestCases] for a target with this test. *)
Definition run_max_target (T : Type) (send : N -> bytes -> T -> option bytes * T) (parses : bytes -> bool) (sup : go_support) (t : T)
  : option (outcome * bench T) :=
  match go_get_profile T (send SimAutoInitLocality) t with
  | (GoOk (VProfile p _ _ _ _ _ _), t1) =>
      match kind_for p with
      | Some k =>
          match go_new T (send SimAutoInitLocality) k t1 with
          | (GoOk c, t2) => Some (run_max T send sup c parses {| bn_device := t2; bn_locality := SimAutoInitLocality; bn_initialized := false |})
          | _ => None
          end
      | None => None
      end
  | _ => None
  end.
(** simulator.go:164-167. *)
Definition max_target : go_support :=
  {| gs_simulation := false; gs_recursive := true; gs_auto_init := true; gs_rotate_context := false; gs_x509 := true; gs_csr := false;
     gs_is_symmetric := false; gs_internal_info := false; gs_internal_dice := false; gs_retain_parent_context := false;
     gs_cdi_export := false; gs_critical := false |}.
