(** SuiteChainProofs.v -- lemmas about the test of GetCertificateChain (SuiteChain.v). *)
From Verif Require Import Base Errors Types StateOps Env Wire Instance Commands Response X509 X509Cert RustCrypto DefaultPlatform Simulator GoClient Suite SuiteChain
  Lib SuiteProofs.
Local Open Scope N_scope.

(** A certificate without what the test removes. *)
Definition bare (x : go_cert) : go_cert :=
  {| ct_subject := ct_subject x; ct_issuer := ct_issuer x; ct_critical := []; ct_usages := [];
     ct_mldsa := ct_mldsa x; ct_key := ct_key x; ct_tbs := ct_tbs x; ct_signature := ct_signature x |}.

Lemma remove_loop_all get set known xs :
  remove_loop get set known [] xs = (map (fun x => if Nat.ltb 0 (length (get x)) then set [] x else x) xs, []).
Proof.
  induction xs as [|x r IH]; [reflexivity|]. cbn [remove_loop map length Nat.eqb]. rewrite IH. destruct (Nat.ltb 0 (length (get x))); reflexivity.
Qed.

Lemma self_bare x : self_issued (bare x) = self_issued x.
Proof. reflexivity. Qed.

Section Check.
  Variable T Z : Type.
  Variable parse : bytes -> option (list go_cert).
  Variable zparse : bytes -> option (list Z).
  Variable lints : Z -> nat.
  Variable mldsa_key : bytes -> bool.
  Variable mldsa_verify : bytes -> bytes -> bytes -> bool.
  Variable verify : go_cert -> list go_cert -> go_cert -> bool * nat.

  Definition signed (issuer x : go_cert) : Prop :=
    exists k, ct_key issuer = Some k /\ mldsa_key k = true /\ mldsa_verify k (ct_tbs x) (ct_signature x) = true.

  Lemma remove_all get set known l1 l2 xs b :
    remove T get set known l1 l2 xs b = (Some (map (fun x => if Nat.ltb 0 (length (get x)) then set [] x else x) xs), [], b).
  Proof. unfold remove. rewrite remove_loop_all. reflexivity. Qed.

  Lemma removed xs : map (fun x => if Nat.ltb 0 (length (ct_usages x)) then set_usages [] x else x)
    (map (fun x => if Nat.ltb 0 (length (ct_critical x)) then set_critical [] x else x) xs) = map bare xs.
  Proof.
    rewrite map_map. apply map_ext. intros [s i cr us m k t g]. cbn [ct_critical]. destruct cr, us; reflexivity.
  Qed.

  Definition validate_bare (ys : list go_cert) : test T unit :=
    andthen T (verify_options T ys) (fun o => validate_loop T mldsa_key mldsa_verify verify (fst o) (snd o) None ys).
  Lemma validate_is_bare xs b : validate_chain T mldsa_key mldsa_verify verify xs b = validate_bare (map bare xs) b.
  Proof.
    unfold validate_chain. unfold andthen at 1. rewrite remove_all. unfold andthen at 1. rewrite remove_all, removed.
    unfold validate_bare. destruct (andthen T _ _ b) as [[o cs] b']. reflexivity.
  Qed.

  Lemma failed_times_spec n line b : failed_times T n line b = (Some tt, repeat (Failed line) n, b).
  Proof.
    revert b. induction n as [|n IH]; intros b; [reflexivity|]. cbn [failed_times repeat]. unfold andthen, failed. rewrite IH. reflexivity.
  Qed.

  Lemma intermediates_spec xs b : exists l cs, intermediates T xs b = (Some l, cs, b) /\ ~ In Crashed cs /\
    (cs = [] <-> forall x, In x xs -> ct_subject x <> ct_issuer x) /\ (cs = [] -> l = xs).
  Proof.
    induction xs as [|x r (l & cs & E & NC & IH & L)].
    { exists [], []. split; [reflexivity|]. split; [intros []|]. split; [|reflexivity]. split; [intros _ x []|reflexivity]. }
    cbn [intermediates]. unfold self_issued. destruct (same_handle (ct_subject x) (ct_issuer x)) eqn:S.
    - unfold andthen, failed. rewrite E. exists l, ([Failed 724] ++ cs). split; [reflexivity|]. split; [intros [H|H]; [discriminate H|contradiction]|].
      split; [|discriminate]. split; [discriminate|]. intros H. exfalso. apply (H x (or_introl eq_refl)). apply same_handle_eq. exact S.
    - unfold andthen, done. rewrite E. exists (x :: l), (cs ++ []). rewrite app_nil_r. split; [reflexivity|]. split; [exact NC|].
      apply same_handle_neq in S. split; [|intros H; f_equal; auto].
      rewrite IH. split; [intros H y [<-|I]; auto|]. intros H y I. apply H. right. exact I.
  Qed.

  Lemma mldsa_spec issuer x b : exists cs, validate_mldsa T mldsa_key mldsa_verify issuer x b = (Some tt, cs, b) /\ ~ In Crashed cs /\ (cs = [] <-> signed issuer x).
  Proof.
    unfold validate_mldsa, signed. destruct (ct_key issuer) as [k|].
    - destruct (mldsa_key k) eqn:K.
      + unfold check. destruct (mldsa_verify k (ct_tbs x) (ct_signature x)) eqn:V.
        * exists []. split; [reflexivity|]. split; [intros []|]. split; [|reflexivity]. intros _. exists k. auto.
        * exists [Failed 165]. split; [reflexivity|]. split; [intros [H|[]]; discriminate H|]. split; [discriminate|]. intros (k' & [= <-] & _ & V'). congruence.
      + exists [Failed 160]. split; [reflexivity|]. split; [intros [H|[]]; discriminate H|]. split; [discriminate|]. intros (k' & [= <-] & K' & _). congruence.
    - exists [Failed 154]. split; [reflexivity|]. split; [intros [H|[]]; discriminate H|]. split; [discriminate|]. intros (k' & H & _). discriminate H.
  Qed.

  Definition fine_at root inter (before : option go_cert) (x : go_cert) : Prop :=
    if ct_mldsa x
    then match before with None => ct_subject x <> ct_issuer x \/ signed x x | Some issuer => signed issuer x end
    else verify root inter x = (true, 1%nat).

  Lemma nil_app {A} (l r : list A) : l ++ r = [] <-> l = [] /\ r = [].
  Proof. split; [apply app_eq_nil|]. intros [-> ->]. reflexivity. Qed.

  Lemma step_spec root inter before x b : exists cs,
    (if ct_mldsa x then
       match before with
       | None => if self_issued x then validate_mldsa T mldsa_key mldsa_verify x x else done T tt
       | Some issuer => validate_mldsa T mldsa_key mldsa_verify issuer x
       end
     else let (fine, chains) := verify root inter x in andthen T (check T fine 172) (fun _ => check T (Nat.eqb chains 1) 177)) b = (Some tt, cs, b) /\
    ~ In Crashed cs /\ (cs = [] <-> fine_at root inter before x).
  Proof.
    unfold fine_at. destruct (ct_mldsa x).
    - destruct before as [issuer|]; [apply mldsa_spec|]. unfold self_issued. destruct (same_handle (ct_subject x) (ct_issuer x)) eqn:S.
      + destruct (mldsa_spec x x b) as (cs & E & NC & H). exists cs. split; [exact E|]. split; [exact NC|]. rewrite H. apply same_handle_eq in S.
        split; [auto|]. intros [N|G]; [contradiction|exact G].
      + exists []. split; [reflexivity|]. split; [intros []|]. apply same_handle_neq in S. split; auto.
    - destruct (verify root inter x) as [fine chains]. unfold andthen, check.
      exists ((if fine then [] else [Failed 172]) ++ (if Nat.eqb chains 1 then [] else [Failed 177])).
      split; [destruct fine, (Nat.eqb chains 1); reflexivity|]. split.
      + destruct fine, (Nat.eqb chains 1); cbn [app In]; intros H; repeat destruct H as [H|H]; try discriminate H; exact H.
      + destruct fine, (Nat.eqb_spec chains 1) as [E|E]; subst; cbn [app]; split; intros H; try discriminate H; try reflexivity; injection H; intros; contradiction.
  Qed.

  Lemma loop_spec root inter before ys b : exists cs, validate_loop T mldsa_key mldsa_verify verify root inter before ys b = (Some tt, cs, b) /\ ~ In Crashed cs /\
    (cs = [] <-> forall j y, nth_error ys j = Some y -> fine_at root inter (match j with O => before | S k => nth_error ys k end) y).
  Proof.
    revert before. induction ys as [|x r IH]; intros before.
    { exists []. split; [reflexivity|]. split; [intros []|]. split; [intros _ [|j] y H; discriminate H|reflexivity]. }
    cbn [validate_loop]. destruct (step_spec root inter before x b) as (c1 & E1 & N1 & H1). destruct (IH (Some x)) as (c2 & E2 & N2 & H2).
    unfold andthen at 1. rewrite E1, E2. exists (c1 ++ c2). split; [reflexivity|]. split; [intros I; apply in_app_or in I as [I|I]; contradiction|].
    rewrite nil_app, H1, H2. split.
    - intros [A B] [|j] y Hj; [injection Hj as <-; exact A|]. cbn [nth_error] in Hj |- *. specialize (B j y Hj). destruct j; exact B.
    - intros H. split; [exact (H 0%nat x eq_refl)|]. intros j y Hj. specialize (H (S j) y Hj). cbn [nth_error] in H. destruct j; exact H.
  Qed.

  Lemma validate_spec xs b : xs <> [] -> exists cs, validate_chain T mldsa_key mldsa_verify verify xs b = (Some tt, cs, b) /\ ~ In Crashed cs /\
    (cs = [] <-> (forall x, In x (tl xs) -> ct_subject x <> ct_issuer x) /\
       forall root, nth_error xs 0 = Some root -> forall j y, nth_error xs j = Some y ->
         fine_at (bare root) (map bare (tl xs)) (match j with O => None | S k => option_map bare (nth_error xs k) end) (bare y)).
  Proof.
    intros NE. rewrite validate_is_bare. destruct xs as [|x r]; [contradiction|]. cbn [map]. unfold validate_bare, verify_options.
    destruct (intermediates_spec (map bare r) b) as (l & c1 & E1 & N1 & H1 & L1). cbn [tl].
    destruct (loop_spec (bare x) l None (bare x :: map bare r) b) as (c2 & E2 & N2 & H2).
    unfold andthen, done. rewrite E1. cbn [fst snd]. rewrite E2. exists ((c1 ++ []) ++ c2). rewrite app_nil_r. split; [reflexivity|].
    split; [intros I; apply in_app_or in I as [I|I]; contradiction|]. rewrite nil_app, H2.
    assert (P : (forall x0, In x0 (map bare r) -> ct_subject x0 <> ct_issuer x0) <-> (forall x0, In x0 r -> ct_subject x0 <> ct_issuer x0)).
    { split; [intros H y I; apply (H (bare y)); apply in_map; exact I|]. intros H y I. apply in_map_iff in I as (z & <- & I). apply (H z I). }
    change (bare x :: map bare r) with (map bare (x :: r)). split.
    - intros [A B]. split; [apply P, H1, A|]. intros root [= <-] j y Hj. rewrite <- (L1 A).
      specialize (B j (bare y)). rewrite nth_error_map, Hj in B. specialize (B eq_refl). destruct j as [|j]; [exact B|]. rewrite nth_error_map in B. exact B.
    - intros [A B]. assert (C1 : c1 = []) by (apply H1, P, A). split; [exact C1|]. intros j y Hj. rewrite (L1 C1). rewrite nth_error_map in Hj.
      destruct (nth_error (x :: r) j) as [z|] eqn:Ej; [|discriminate Hj]. injection Hj as <-. specialize (B x eq_refl j z Ej).
      destruct j as [|j]; [exact B|]. rewrite nth_error_map. exact B.
  Qed.

  Lemma lint_spec zs b : exists o cs, lint_loop T Z lints false zs b = (o, cs, b) /\ ~ In Crashed cs /\ (cs = [] <-> forall z, In z zs -> lints z = 0%nat) /\ (cs = [] <-> o = Some tt).
  Proof.
    induction zs as [|z r (o & cs & E & NC & H & G)].
    { exists (Some tt), []. split; [reflexivity|]. split; [intros []|]. split; [split; [intros _ z []|reflexivity]|]. split; reflexivity. }
    cbn [lint_loop]. unfold andthen. rewrite failed_times_spec. cbn [orb]. destruct (lints z) as [|n] eqn:L.
    - cbn [Nat.ltb Nat.leb repeat app]. rewrite E. exists o, cs. split; [reflexivity|]. split; [exact NC|]. split; [|exact G]. rewrite H.
      split; [intros A y [<-|I]; auto|]. intros A y I. apply A. right. exact I.
    - cbn [Nat.ltb Nat.leb]. unfold stopped. exists None, (repeat (Failed 98) (S n) ++ [Stopped 109]). split; [reflexivity|].
      split. { intros I. apply in_app_or in I as [I|[I|[]]]; [|discriminate I]. apply repeat_spec in I. discriminate I. }
      split; [|split; discriminate]. split; [discriminate|]. intros A. specialize (A z (or_introl eq_refl)). rewrite L in A. discriminate A.
  Qed.

  Definition accepted (xs : list go_cert) (i : nat) (x : go_cert) : Prop :=
    if ct_mldsa x
    then match i with
         | O => ct_subject x <> ct_issuer x \/ signed x x
         | S j => exists issuer, nth_error xs j = Some issuer /\ signed issuer x
         end
    else exists root, nth_error xs 0 = Some root /\ verify (bare root) (map bare (tl xs)) (bare x) = (true, 1%nat).

  Lemma accepted_fine xs : xs <> [] ->
    (forall root, nth_error xs 0 = Some root -> forall j y, nth_error xs j = Some y ->
       fine_at (bare root) (map bare (tl xs)) (match j with O => None | S k => option_map bare (nth_error xs k) end) (bare y)) <->
    (forall i x, nth_error xs i = Some x -> accepted xs i x).
  Proof.
    intros NE. destruct xs as [|r0 r]; [contradiction|]. unfold fine_at, accepted.
    assert (S1 : forall i x, signed (bare i) (bare x) <-> signed i x) by (intros; split; intros H; exact H). split.
    - intros H i x Hi. specialize (H r0 eq_refl i x Hi). cbn [ct_mldsa bare] in H. destruct (ct_mldsa x); [|exists r0; split; [reflexivity|exact H]].
      destruct i as [|i]; [exact H|]. destruct (nth_error (r0 :: r) i) as [iss|] eqn:E.
      + exists iss. split; [reflexivity|]. apply S1. exact H.
      + exfalso. apply nth_error_None in E. assert (Hl : (S i < length (r0 :: r))%nat) by (apply nth_error_Some; rewrite Hi; discriminate). lia.
    - intros H root [= <-] j y Hj. specialize (H j y Hj). cbn [ct_mldsa bare]. destruct (ct_mldsa y).
      + destruct j as [|j]; [exact H|]. destruct H as (iss & E & H). rewrite E. apply S1. exact H.
      + destruct H as (root & [= <-] & H). exact H.
  Qed.

  Lemma check_spec data b : exists o cs, check_chain T Z parse zparse lints mldsa_key mldsa_verify verify data b = (o, cs, b) /\
    (parse data <> Some [] -> ~ In Crashed cs) /\
    (cs = [] <-> exists xs zs, parse data = Some xs /\ zparse data = Some zs /\ xs <> [] /\ (forall z, In z zs -> lints z = 0%nat) /\
       (forall x, In x (tl xs) -> ct_subject x <> ct_issuer x) /\ forall i x, nth_error xs i = Some x -> accepted xs i x).
  Proof.
    unfold check_chain. destruct (parse data) as [xs|] eqn:P.
    2:{ exists None, [Stopped 39]. split; [reflexivity|]. split; [intros _ [H|[]]; discriminate H|]. split; [discriminate|]. intros (xs & zs & H & _). discriminate H. }
    destruct xs as [|x r].
    { assert (X : exists o cs, (match zparse data with None => andthen T (failed T 45) (fun _ => lint_loop T Z lints true []) | Some zs => lint_loop T Z lints false zs end) b = (o, cs, b) /\ (o = Some tt \/ cs <> [])).
      { destruct (zparse data) as [zs|]; [|exists (Some tt), [Failed 45]; split; [reflexivity|auto]].
        destruct (lint_spec zs b) as (o & cs & E & _ & _ & G). exists o, cs. split; [exact E|]. destruct cs; [left; apply G; reflexivity|right; discriminate]. }
      destruct X as (o & cs & E & G). unfold andthen at 1. rewrite E. destruct o as [[]|].
      - exists None, (cs ++ [Crashed]). rewrite validate_is_bare. split; [reflexivity|]. split; [congruence|].
        split; [intros H; destruct cs; discriminate H|]. intros (xs & zs & [= <-] & _ & H & _). contradiction.
      - exists None, cs. split; [reflexivity|]. split; [congruence|]. split; [intros ->; destruct G as [G|G]; [discriminate G|contradiction]|].
        intros (xs & zs & [= <-] & _ & H & _). contradiction. }
    assert (NE : x :: r <> []) by discriminate. destruct (validate_spec (x :: r) b NE) as (c2 & E2 & N2 & H2). rewrite (accepted_fine _ NE) in H2.
    destruct (zparse data) as [zs|].
    - destruct (lint_spec zs b) as (o & c1 & E1 & N1 & H1 & G1). unfold andthen at 1. rewrite E1. destruct o as [[]|].
      + rewrite E2. exists (Some tt), (c1 ++ c2). split; [reflexivity|]. split; [intros _ I; apply in_app_or in I as [I|I]; contradiction|].
        rewrite nil_app, H1, H2. split.
        * intros (A & B & C). exists (x :: r), zs. auto 10.
        * intros (xs & zs' & [= <-] & [= <-] & _ & A & B). auto.
      + exists None, c1. split; [reflexivity|]. split; [auto|]. split.
        * intros E. apply G1 in E. discriminate E.
        * intros (xs & zs' & [= <-] & [= <-] & _ & A & _). apply H1. exact A.
    - unfold andthen, failed, lint_loop, done. rewrite E2. exists (Some tt), (([Failed 45] ++ []) ++ c2). split; [reflexivity|].
      split; [intros _ I; destruct I as [I|I]; [discriminate I|contradiction]|]. split; [discriminate|]. intros (xs & zs & _ & H & _). discriminate H.
  Qed.
End Check.

Lemma andthen_ext T {A B} (m : test T A) (f g : test T B) b : (forall b1, f b1 = g b1) -> andthen T m (fun _ => f) b = andthen T m (fun _ => g) b.
Proof. intros H. unfold andthen. destruct (m b) as [[[a|] l] b1]; [rewrite H|]; reflexivity. Qed.
Lemma check_bare T Z parse parse' zparse lints mldsa_key mldsa_verify verify data b :
  option_map (map bare) (parse data) = option_map (map bare) (parse' data) ->
  check_chain T Z parse zparse lints mldsa_key mldsa_verify verify data b = check_chain T Z parse' zparse lints mldsa_key mldsa_verify verify data b.
Proof.
  unfold check_chain. destruct (parse data) as [xs|], (parse' data) as [ys|]; cbn [option_map]; intros H; try discriminate H; [|reflexivity].
  injection H as H. apply andthen_ext. intros b1. rewrite !validate_is_bare, H. reflexivity.
Qed.
