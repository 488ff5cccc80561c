(** SuiteExtProofs.v -- lemmas about the checks of extensions (SuiteExt.v). *)
From Verif Require Import Base Errors Types StateOps Env Wire Instance Commands Response X509 X509Cert RustCrypto DefaultPlatform Simulator GoClient Suite SuiteChain SuiteExt
  Lib SuiteProofs SuiteChainProofs.
Local Open Scope N_scope.

Lemma same_oid_eq a b : same_oid a b = true <-> a = b.
Proof. unfold same_oid. destruct (list_eq_dec N.eq_dec a b); split; intros H; try discriminate H; auto; contradiction. Qed.
Lemma same_oid_neq a b : same_oid a b = false <-> a <> b.
Proof. unfold same_oid. destruct (list_eq_dec N.eq_dec a b); split; intros H; try discriminate H; auto; contradiction. Qed.

(** No extension has the identifier; the first that has. *)
Definition absent (l : list go_ext) (id : oid) : Prop := forall e, In e l -> ex_id e <> id.
Definition first_is (l : list go_ext) (id : oid) (e : go_ext) : Prop := exists a z, l = a ++ e :: z /\ absent a id /\ ex_id e = id.

Lemma get_absent {A} (zero : A) id allowed un l : absent l id -> get_extension zero id allowed un l = (zero, true).
Proof.
  induction l as [|e r IH]; intros H; [reflexivity|]. cbn [get_extension]. rewrite (proj2 (same_oid_neq _ _) (H e (or_introl eq_refl))).
  apply IH. intros x I. apply H. right. exact I.
Qed.
Lemma get_first {A} (zero : A) id allowed un l e : first_is l id e ->
  get_extension zero id allowed un l = if allowed (ex_critical e) then un (ex_value e) else (zero, false).
Proof.
  intros (a & z & -> & H & E). induction a as [|x a IH]; cbn [app get_extension].
  - rewrite (proj2 (same_oid_eq _ _) E). reflexivity.
  - rewrite (proj2 (same_oid_neq _ _) (H x (or_introl eq_refl))). apply IH. intros y I. apply H. right. exact I.
Qed.
Lemma present_or_not l id : absent l id \/ exists e, first_is l id e.
Proof.
  induction l as [|e r [H|(x & a & z & -> & H & E)]].
  - left. intros e [].
  - destruct (same_oid (ex_id e) id) eqn:S.
    + apply same_oid_eq in S. right. exists e, [], r. split; [reflexivity|]. split; [intros x []|exact S].
    + apply same_oid_neq in S. left. intros x [<-|I]; auto.
  - destruct (same_oid (ex_id e) id) eqn:S.
    + apply same_oid_eq in S. right. exists e, [], (a ++ x :: z). split; [reflexivity|]. split; [intros y []|exact S].
    + apply same_oid_neq in S. right. exists x, (e :: a), z. split; [reflexivity|]. split; [intros y [<-|I]; auto|exact E].
Qed.
Lemma first_unique l id e e' : first_is l id e -> first_is l id e' -> e = e'.
Proof.
  intros F F'. pose proof (get_first None id (fun _ => true) (fun _ => (Some tt, true)) l e F) as _.
  destruct F as (a & z & -> & H & E). destruct F' as (a' & z' & X & H' & E'). revert a' X H'.
  induction a as [|x a IH]; intros [|x' a'] X H'; cbn [app] in X.
  - congruence.
  - injection X as -> X. exfalso. apply (H' x' (or_introl eq_refl)). exact E.
  - injection X as -> X. exfalso. apply (H e' (or_introl eq_refl)). exact E'.
  - injection X as -> X. apply (IH (fun y I => H y (or_intror I)) a' X (fun y I => H' y (or_intror I))).
Qed.
Lemma absent_first l id e : absent l id -> first_is l id e -> False.
Proof. intros H (a & z & -> & _ & E). apply (H e); [apply in_elt|exact E]. Qed.

(** A value without an error: of the first extension, or the zero value if there is none. *)
Lemma get_ok {A} (zero : A) id allowed un l v :
  get_extension zero id allowed un l = (v, true) <->
  (absent l id /\ v = zero) \/ exists e, first_is l id e /\ allowed (ex_critical e) = true /\ un (ex_value e) = (v, true).
Proof.
  destruct (present_or_not l id) as [H|(e & F)].
  - rewrite get_absent by exact H. split; [intros [= <-]; left; auto|]. intros [[_ ->]|(e & F & _)]; [reflexivity|destruct (absent_first _ _ _ H F)].
  - rewrite (get_first _ _ _ _ _ _ F). split.
    + intros E. right. exists e. split; [exact F|]. destruct (allowed (ex_critical e)); [auto|discriminate E].
    + intros [[H _]|(e' & F' & A' & E)]; [destruct (absent_first _ _ _ H F)|]. rewrite (first_unique _ _ _ _ F F'), A'. exact E.
Qed.

Section Checks.
  Variable T : Type.
  Variable U : unmarshal.
  Variables sha256 sha384 : bytes -> bytes.
  Notation "m ;;; k" := (andthen T m (fun _ => k)) (at level 61, right associativity).

  (** A part of the test that leaves the bench alone, never panics, and has nothing to say
      exactly if [P]. *)
  Definition says (m : test T unit) (P : Prop) : Prop :=
    forall b, exists o cs, m b = (o, cs, b) /\ (cs = [] <-> P) /\ (cs = [] -> o = Some tt) /\ ~ In Crashed cs.

  Lemma says_iff m P Q : says m P -> (P <-> Q) -> says m Q.
  Proof. intros H E b. destruct (H b) as (o & cs & X & Y & Z). exists o, cs. rewrite <- E. auto. Qed.
  Lemma says_done : says (done T tt) True.
  Proof. intros b. exists (Some tt), []. split; [reflexivity|]. split; [split; auto|]. split; [reflexivity|intros []]. Qed.
  Lemma says_check c line : says (check T c line) (c = true).
  Proof.
    intros b. destruct c; [exists (Some tt), []|exists (Some tt), [Failed line]]; (split; [reflexivity|]); (split; [split; congruence|]); (split; [reflexivity|]).
    - intros [].
    - intros [H|[]]; discriminate H.
  Qed.
  Lemma says_failed line : says (failed T line) False.
  Proof. intros b. exists (Some tt), [Failed line]. split; [reflexivity|]. split; [split; [discriminate|intros []]|]. split; [reflexivity|]. intros [H|[]]; discriminate H. Qed.
  Lemma says_stopped line : says (stopped T line) False.
  Proof. intros b. exists None, [Stopped line]. split; [reflexivity|]. split; [split; [discriminate|intros []]|]. split; [discriminate|]. intros [H|[]]; discriminate H. Qed.
  Lemma says_then m k P Q : says m P -> says k Q -> says (m ;;; k) (P /\ Q).
  Proof.
    intros HM HK b. destruct (HM b) as (o & cs & E & A & B & N). destruct (HK b) as (o2 & c2 & E2 & A2 & B2 & N2). unfold andthen. rewrite E.
    destruct o as [[]|].
    - rewrite E2. exists o2, (cs ++ c2). split; [reflexivity|]. rewrite nil_app, A, A2. split; [reflexivity|].
      split; [intros [H1 H2]; apply B2, A2; exact H2|]. intros I. apply in_app_or in I as [I|I]; contradiction.
    - exists None, cs. split; [reflexivity|]. split; [|split; [exact B|exact N]].
      assert (X : cs <> []) by (intros H; specialize (B H); discriminate B). split; [contradiction|]. intros [H _]. apply A in H. contradiction.
  Qed.

  Lemma registers_says l : says (check_registers T l) (forall n, In n l -> n = 0).
  Proof.
    induction l as [|n r IH]; cbn [check_registers].
    - eapply says_iff; [apply says_done|]. split; [intros _ n []|auto].
    - eapply says_iff; [apply says_then; [apply says_check|exact IH]|]. rewrite N.eqb_eq. split.
      + intros [H1 H2] m [<-|I]; auto.
      + intros H. split; [apply H; left; reflexivity|]. intros m I. apply H. right. exact I.
  Qed.
  Lemma tcbs_says l : says (check_tcbs T l) (forall t, In t l -> t = [] \/ t = [0]).
  Proof.
    induction l as [|t r IH]; cbn [check_tcbs].
    - eapply says_iff; [apply says_done|]. split; [intros _ n []|auto].
    - eapply says_iff; [apply says_then; [apply says_check|apply says_then; [apply registers_says|exact IH]]|].
      assert (X : negb (Nat.ltb 1 (length t)) = true /\ (forall n, In n t -> n = 0) <-> t = [] \/ t = [0]).
      { destruct t as [|n [|m t]]; cbn [length Nat.ltb Nat.leb negb].
        - split; [auto|]. intros _. split; [reflexivity|intros n []].
        - split; [intros [_ H]; right; rewrite (H n (or_introl eq_refl)); reflexivity|]. intros [H|[= ->]]; [discriminate H|]. split; [reflexivity|]. intros m [<-|[]]. reflexivity.
        - split; [intros [H _]; discriminate H|intros [H|H]; discriminate H]. }
      split.
      + intros (A & B & C) t' [<-|I]; [apply X; auto|auto].
      + intros H. destruct (proj2 X (H t (or_introl eq_refl))) as [A B]. split; [exact A|]. split; [exact B|]. intros t' I. apply H. right. exact I.
  Qed.

  Lemma ueid_says l label critical : says (check_ueid T U l label critical) (get_ueid U l critical = (Some label, true)).
  Proof.
    unfold check_ueid. destruct (get_ueid U l critical) as [u ok]. eapply says_iff; [apply says_then; apply says_check|].
    destruct u as [v|]; [rewrite same_handle_eq|]; split; [intros [-> ->]; reflexivity|intros [= -> ->]; auto|intros [_ H]; discriminate H|discriminate].
  Qed.
  Lemma usages_says l ca : says (check_usages T U l ca) (exists us, get_usages U l = (us, true) /\ In (if ca then OidTcgDiceKpEca else OidTcgDiceKpAttestLoc) us).
  Proof.
    unfold check_usages. destruct (get_usages U l) as [us ok]. eapply says_iff; [apply says_then; [apply says_check|apply says_then; apply says_check]|].
    rewrite existsb_exists. split.
    - intros (-> & _ & (x & I & S)). apply same_oid_eq in S. subst x. exists us. auto.
    - intros (us' & [= <- ->] & I). split; [reflexivity|]. split; [destruct us; [destruct I|reflexivity]|].
      eexists. split; [exact I|]. apply same_oid_eq. reflexivity.
  Qed.
  Lemma constraints_says l expected : says (check_constraints T U l expected) (exists ca, get_constraints U l = (ca, true) /\ (ca = true -> expected = true)).
  Proof.
    unfold check_constraints. destruct (get_constraints U l) as [ca ok]. eapply says_iff; [apply says_then; apply says_check|]. split.
    - intros [-> H]. exists ca. split; [reflexivity|]. intros ->. destruct expected; [reflexivity|discriminate H].
    - intros (ca' & [= <- ->] & H). split; [reflexivity|]. destruct ca; [rewrite H by reflexivity|]; reflexivity.
  Qed.
  Lemma aki_says l issuer : says (check_aki T U l issuer) (exists k, get_aki U l = (Some k, true) /\ issuer = Some k).
  Proof.
    unfold check_aki. destruct (get_aki U l) as [[k|] ok].
    - eapply says_iff; [apply says_then; apply says_check|]. destruct issuer as [s|]; [rewrite same_handle_eq|]; split.
      + intros [-> ->]. exists s. auto.
      + intros (k' & [= <- ->] & [= ->]). auto.
      + intros [_ H]. discriminate H.
      + intros (k' & _ & H). discriminate H.
    - eapply says_iff; [apply says_then; [apply says_check|apply says_stopped]|]. split; [intros [_ []]|]. intros (k & H & _). discriminate H.
  Qed.
  Definition key_id (pub : bytes * bytes) (ski : bytes) : Prop :=
    let (x, y) := pub in
    (length x = 32%nat /\ ski = firstn 20 (sha256 ([4] ++ x ++ y))) \/ (length x = 48%nat /\ ski = firstn 20 (sha384 ([4] ++ x ++ y))) \/
    (length x = N.to_nat 2592 /\ ski = firstn 20 (sha384 x)).
  Lemma ski_says l ca pub : says (check_ski T U sha256 sha384 l ca pub)
    (if ca then exists ski, get_ski U l = (Some ski, true) /\ (forall p, pub = Some p -> key_id p ski) else get_ski U l = (None, true)).
  Proof.
    unfold check_ski. destruct (get_ski U l) as [ski ok]. destruct ca.
    2:{ eapply says_iff; [apply says_then; apply says_check|]. destruct ski; split; intros H; try (destruct H; discriminate); try discriminate H; [destruct H as [-> _]; reflexivity|injection H as ->; auto]. }
    destruct pub as [[x y]|].
    2:{ eapply says_iff; [apply says_then; [apply says_check|apply says_then; [apply says_check|apply says_done]]|]. destruct ski as [v|]; split.
        - intros [-> _]. exists v. split; [reflexivity|discriminate].
        - intros (v' & [= <- ->] & _). auto.
        - intros (_ & H & _). discriminate H.
        - intros (v' & H & _). discriminate H. }
    assert (X : forall h (P : Prop), (P <-> True) ->
      says (check T ok 445 ;;; check T (match ski with Some _ => true | None => false end) 449 ;;; check T (match ski with Some v => same_handle v (firstn 20 h) | None => false end) 475)
        (exists v, (ski, ok) = (Some v, true) /\ v = firstn 20 h)).
    { intros h _ _. eapply says_iff; [apply says_then; [apply says_check|apply says_then; apply says_check]|]. destruct ski as [v|]; [rewrite same_handle_eq|]; split.
      - intros (-> & _ & H). exists v. auto.
      - intros (v' & [= <- ->] & H). auto.
      - intros (_ & H & _). discriminate H.
      - intros (v' & H & _). discriminate H. }
    assert (L : length x = 32%nat \/ length x = 48%nat \/ length x = N.to_nat 2592 \/ (length x <> 32%nat /\ length x <> 48%nat /\ length x <> N.to_nat 2592)) by lia.
    destruct L as [L|[L|[L|(L1 & L2 & L3)]]].
    - rewrite L. cbn [Nat.eqb]. eapply says_iff; [apply (X _ True); split; auto|]. unfold key_id. split.
      + intros (v & E & ->). eexists. split; [exact E|]. intros p [= <-]. left. auto.
      + intros (v & E & H). exists v. split; [exact E|]. destruct (H _ eq_refl) as [[_ K]|[[K _]|[K _]]]; [exact K|lia|lia].
    - rewrite L. cbn [Nat.eqb]. eapply says_iff; [apply (X _ True); split; auto|]. unfold key_id. split.
      + intros (v & E & ->). eexists. split; [exact E|]. intros p [= <-]. right. left. auto.
      + intros (v & E & H). exists v. split; [exact E|]. destruct (H _ eq_refl) as [[K _]|[[_ K]|[K _]]]; [lia|exact K|lia].
    - rewrite (proj2 (Nat.eqb_neq (length x) 32)) by lia. rewrite (proj2 (Nat.eqb_neq (length x) 48)) by lia. rewrite (proj2 (Nat.eqb_eq _ _) L).
      eapply says_iff; [apply (X _ True); split; auto|]. unfold key_id. split.
      + intros (v & E & ->). eexists. split; [exact E|]. intros p [= <-]. right. right. auto.
      + intros (v & E & H). exists v. split; [exact E|]. destruct (H _ eq_refl) as [[K _]|[[K _]|[_ K]]]; [lia|lia|exact K].
    - rewrite (proj2 (Nat.eqb_neq _ _) L1), (proj2 (Nat.eqb_neq _ _) L2), (proj2 (Nat.eqb_neq _ _) L3).
      eapply says_iff; [apply says_then; [apply says_check|apply says_then; [apply says_check|apply says_failed]]|]. unfold key_id. split; [intros (_ & _ & [])|].
      intros (v & E & H). destruct (H _ eq_refl) as [[K _]|[[K _]|[K _]]]; contradiction.
  Qed.

  Lemma extensions_says l label pub x509 issuer expected critical :
    says (check_extensions T U sha256 sha384 l label pub x509 issuer expected critical)
      (exists ca us, get_constraints U l = (ca, true) /\ (ca = true -> expected = true) /\
         (get_usages U l = (us, true) /\ In (if ca then OidTcgDiceKpEca else OidTcgDiceKpAttestLoc) us) /\
         (forall v, label = Some v -> get_ueid U l critical = (Some v, true)) /\
         (x509 = true -> (if ca then exists ski, get_ski U l = (Some ski, true) /\ (forall p, pub = Some p -> key_id p ski) else get_ski U l = (None, true)) /\
                         exists k, get_aki U l = (Some k, true) /\ issuer = Some k) /\
         (exists tcbs, get_tcbs U l critical = (tcbs, true) /\ forall t, In t tcbs -> t = [] \/ t = [0]) /\
         get_key_usage U l = (if ca then 33 else 1, true)).
  Proof.
    unfold check_extensions. pose proof (constraints_says l expected) as HC. destruct (get_constraints U l) as [ca ok].
    assert (HL : says (match label with Some v => check_ueid T U l v critical | None => done T tt end) (forall v, label = Some v -> get_ueid U l critical = (Some v, true))).
    { destruct label as [v|]; [eapply says_iff; [apply ueid_says|]; split; [intros H v' [= <-]; exact H|intros H; exact (H v eq_refl)]|].
      eapply says_iff; [apply says_done|]. split; [intros _ v H; discriminate H|auto]. }
    assert (HX : says (if x509 then check_ski T U sha256 sha384 l ca pub ;;; check_aki T U l issuer else done T tt)
      (x509 = true -> (if ca then exists ski, get_ski U l = (Some ski, true) /\ (forall p, pub = Some p -> key_id p ski) else get_ski U l = (None, true)) /\
                      exists k, get_aki U l = (Some k, true) /\ issuer = Some k)).
    { destruct x509; [eapply says_iff; [apply says_then; [apply ski_says|apply aki_says]|]; split; [intros H _; exact H|intros H; exact (H eq_refl)]|].
      eapply says_iff; [apply says_done|]. split; [intros _ H; discriminate H|auto]. }
    destruct (get_tcbs U l critical) as [tcbs ok1]. destruct (get_key_usage U l) as [usage ok2].
    eapply says_iff.
    { apply says_then; [apply says_check|]. apply says_then; [exact HC|]. apply says_then; [apply usages_says|]. apply says_then; [exact HL|]. apply says_then; [exact HX|].
      apply says_then; [apply says_check|]. apply says_then; [apply tcbs_says|]. apply says_then; apply says_check. }
    rewrite N.eqb_eq. change (2 ^ 0 + 2 ^ 5) with 33. change (2 ^ 0) with 1. split.
    - intros (-> & (ca' & [= <-] & E1) & (us & E2) & E3 & E4 & -> & E5 & -> & ->). exists ca, us. split; [reflexivity|]. split; [exact E1|]. split; [exact E2|]. split; [exact E3|].
      split; [exact E4|]. split; [exists tcbs; auto|reflexivity].
    - intros (ca' & us & [= <- ->] & E1 & E2 & E3 & E4 & (t' & [= <- ->] & E5) & [= -> ->]). split; [reflexivity|]. split; [exists ca; auto|]. split; [exists us; exact E2|]. auto 10.
  Qed.

End Checks.
