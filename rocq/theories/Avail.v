(** Avail.v -- legitimate requests to a dependable environment succeed: proofs. *)
From Verif Require Import Base Errors Types StateOps Env Wire Instance Commands Lib Spec Exec
  Effects Forest DestroyProofs History WireSpec Steps Reach Frame Contract Denials CommandSpecs
  Responses RespBuf Response Execute Walk Measure Reasons Explain.
Local Open Scope nat_scope.

Section Avail.
  Variable cf : config.
  Hypothesis Hcf : config_ok cf.
  Context {C P : Type}.
  Variable co : crypto_ops C.
  Variable po : platform_ops P.
  Variable cg : cert_kind -> cert_args -> nat -> state -> C -> P -> bytes ->
                result cert_result * C * P * bytes.
  Hypothesis Hk : keeps_size cg.
  Notation world := (world C P).

  Section Dependable.
    Variable need : nat.
    Hypothesis D : dependable cf co po cg need.

    Lemma no_ext e : ~ no_extension cf co e.
    Proof.
      intros [(ce & _ & X)|(_ & l & d & X & Y)]; [exact (dep_hash _ _ _ _ _ D _ X)|].
      apply Y. exact (dep_digest _ _ _ _ _ D _ _ X).
    Qed.
    Lemma no_meas s i e : ~ no_measurement co po s i e.
    Proof.
      intros [(ce & _ & X)|[(pe & _ & X & _)|(_ & _ & o & b & p & n & b' & p' & X & Y)]].
      - exact (dep_hash _ _ _ _ _ D _ X).
      - exact (dep_vendor _ _ _ _ _ D _ X).
      - apply (dep_chunk _ _ _ _ _ D) in X. lia.
    Qed.
    Lemma writer_ok kd a o s b p out e c' p' out' :
      o + need <= length out -> cg kd a o s b p out <> (Err e, c', p', out').
    Proof. intros L X. destruct (dep_writer _ _ _ _ _ D kd a o s b p out L) as (? & ? & ? & ? & Y). congruence. Qed.
    Lemma mine_not s h loc i x e : mine s h loc i x -> ~ not_yours s h loc e.
    Proof. intros [[X _] _] [Y _]. exact (Y _ X). Qed.
    Lemma mine_same s h loc i x j y : mine s h loc i x -> first_slot (names s h loc) j -> at_slot s j y -> i = j /\ x = y.
    Proof.
      intros [[X1 X2] X3] [Y1 Y2] Y3. assert (i = j).
      { destruct (lt_eq_lt_dec i j) as [[L|]|L]; auto; exfalso; [eapply Y2|eapply X2]; eauto. }
      subst j. unfold at_slot in *. split; congruence.
    Qed.
    Lemma mine_handle s h loc i x : mine s h loc i x -> c_handle x = h.
    Proof. intros [[(y & Y & _ & _ & Z) _] X]. unfold at_slot in *. congruence. Qed.
    Lemma free_not_full s : (exists i c, at_slot s i c /\ c_state c = Inactive) -> ~ full s.
    Proof. intros (i & c & H1 & H2) F. apply (F i c H1). exact H2. Qed.

    Ltac no := exfalso; first
      [ eapply no_ext; eassumption | eapply no_meas; eassumption | eapply mine_not; eassumption ].

    Theorem refused_why cmd loc s s' room e :
      legitimate cf po cmd loc s -> room_for cf need cmd <= room ->
      refusal cf co po cg cmd loc s s' room e ->
      needs_handle cmd loc s /\ no_handle co s' e.
    Proof.
      intros L R [[_ X]|X]; [unfold room_for in R; lia|]. unfold room_for in R.
      destruct cmd as [|f|d|c|c|h f|h|off size|u]; cbn [legitimate refusal needs_handle] in *.
      - destruct X as (pe & _ & X). destruct (dep_vendor _ _ _ _ _ D _ X).
      - destruct L as [Hfree L]. apply free_not_full in Hfree.
        destruct X as [[_ [[X1 X2]|[X1 X2]]]|[[_ X]|[[_ X]|X]]];
          [| | | |exact X]; exfalso; destruct L as [(L1 & L2 & L3)|(L1 & L2 & L3)]; try congruence; auto.
      - destruct L as (L1 & i & x & M & L2 & L3).
        destruct X as [[_ X]|[X|(j & y & F & A & X)]]; [contradiction|no|].
        destruct (mine_same _ _ _ _ _ _ _ M F A) as [<- <-].
        destruct X as [[_ X]|X]; [contradiction|].
        pose proof (mine_handle _ _ _ _ _ M) as Eh. rewrite <- Eh.
        destruct (N.testbit (dc_flags d) 24) eqn:B24.
        + destruct L3 as [L3 L4]. destruct X as [[_ X]|[[_ X]|[X|[X Y]]]]; [contradiction|contradiction|no|].
          split; [|exact Y]. left. auto.
        + destruct X as [(X & Y & Z)|X]; [split; [left; auto|exact Z]|].
          destruct (N.testbit (dc_flags d) 23) eqn:B23.
          * destruct X as [(pe & _ & X)|(a & b & p & out & c' & p' & out' & Lo & _ & _ & _ & X)].
            { destruct (dep_ueid _ _ _ _ _ D _ X). }
            exfalso. eapply writer_ok; [|exact X]. cbn [fixed_size] in R. rewrite B23 in R. lia.
          * destruct L3 as [L3 L4]. apply free_not_full in L3.
            destruct X as [[_ X]|[[_ X]|[X|[X Y]]]]; [contradiction| |no|].
            2:{ split; [right; auto|exact Y]. }
            exfalso. unfold unsafe_child in X. destruct (N.testbit (dc_flags d) 28) eqn:B28.
            { destruct X as (j & c & A1 & A2 & A3 & A4). destruct (L4 j c A1 A2 A3) as (-> & Z1 & Z2).
              destruct A4 as [A4|[A4|A4]]; congruence. }
            { destruct X as (j & [A1 _] & A4). destruct (L4 j A1) as (-> & Z). destruct A4; congruence. }
      - destruct L as (h & i & x & Hp & M & L).
        destruct X as (k & ch & -> & Hkk & X).
        assert (Eh : h = ck_handle ch) by (destruct Hkk as [-> | [-> | ->]]; exact Hp). subst h.
        destruct X as [X|(j & y & F & A & X)]; [no|].
        destruct (mine_same _ _ _ _ _ _ _ M F A) as [<- <-]. pose proof (mine_handle _ _ _ _ _ M) as Eh.
        assert (Hfmt : (ck_format ch = 0%N /\ supports s X509 /\ c_x509 x = true) \/ (ck_format ch = 1%N /\ supports s CSR)).
        { destruct Hkk as [-> | [-> | ->]], (prof cf); tauto. }
        destruct X as [[_ X]|[[_ X]|[(a & b & p & out & c' & p' & out' & Lo & _ & _ & _ & _ & X)|[[X Y]|(_ & kd & a & b & p & out & cr & c' & p' & out' & X & Y)]]]].
        + exfalso. destruct Hfmt as [(Z1 & Z2 & Z3)|(Z1 & Z2)], X as [[X1 X2]|[X1 X2]]; try contradiction; congruence.
        + exfalso. destruct Hfmt as [(Z1 & Z2 & Z3)|(Z1 & Z2)], X as [[X1 X2]|X1]; try congruence; lia.
        + exfalso. eapply writer_ok; [|exact X]. lia.
        + split; [|exact Y]. exists (ck_handle ch). split; [exact Hp|]. congruence.
        + exfalso. apply (dep_pubkey _ _ _ _ _ D) in X.
          destruct Hkk as [-> | [-> | ->]], (prof cf), (cr_pubkey cr); contradiction.
      - destruct L as [L1 L2].
        destruct X as [(_ & rr & -> & X)|(h & Hp & X)]; [exfalso; specialize (L1 _ eq_refl); lia|].
        destruct (L2 h Hp) as (i & x & M & L3).
        destruct X as [X|(j & y & F & A & X)]; [no|].
        destruct (mine_same _ _ _ _ _ _ _ M F A) as [<- <-]. pose proof (mine_handle _ _ _ _ _ M) as Eh.
        destruct X as [[_ X]|[X|[(ce & _ & X)|[(_ & dg & b & sg & b' & X & Y)|[X Y]]]]].
        + exfalso; congruence.
        + no.
        + destruct (dep_key _ _ _ _ _ D _ X).
        + exfalso. apply (dep_signature _ _ _ _ _ D) in X. destruct sg; congruence.
        + split; [|exact Y]. exists h. split; [exact Hp|]. congruence.
      - destruct L as (L1 & i & x & M & L2).
        destruct X as [[_ X]|[X|[(_ & X & t & j & y & F & A & A1 & A2 & Y)|X]]]; [contradiction|no| |exact X].
        exfalso. destruct (L2 X) as [L3 L4]. pose proof (L4 j y A A1 A2) as ->.
        destruct M as [M1 M2]. assert (t = i).
        { destruct M1 as [N1 N2], F as [F1 F2]. destruct (lt_eq_lt_dec t i) as [[?|]|?]; auto; exfalso; [eapply N2|eapply F2]; eauto. }
        subst t. destruct Y as [Y|Y]; [|congruence]. unfold at_slot in *. congruence.
      - destruct L as (i & x & M). no.
      - destruct L as [L1 L2]. destruct X as [[_ X]|(_ & pe & p & b' & p' & _ & X)]; [lia|].
        destruct (L2 p) as (? & ? & ? & Y). congruence.
      - destruct L as (L1 & p & x & M & i & c & L2 & L3 & L4 & L5).
        destruct X as [[_ X]|[[_ X]|(q & F & X)]]; [contradiction|exfalso; destruct M as [[M _] _]; exact (X _ M)|].
        assert (q = p).
        { destruct M as [[N1 N2] _], F as [F1 F2]. destruct (lt_eq_lt_dec q p) as [[?|]|?]; auto; exfalso; [eapply N2|eapply F2]; eauto. }
        subst q. destruct X as [[_ X]|[X|X]]; [destruct (X i c L2 L3 L4 L5)|no|auto].
    Qed.

    Theorem never_aborts cmd loc s k : (forall kd a o s b p out k c' p' out', cg kd a o s b p out <> (Crash k, c', p', out')) ->
      ~ aborts cf po cg cmd loc s k.
    Proof.
      intros NC. destruct cmd; cbn [aborts]; try tauto.
      - intros (_ & a & o & b & p & out & c' & p' & out' & X). eapply NC; exact X.
      - intros (kd & a & o & b & p & out & c' & p' & out' & X). eapply NC; exact X.
      - intros (h & i & _ & _ & _ & p & X). apply X. apply (dep_chain _ _ _ _ _ D).
    Qed.
  End Dependable.

  Theorem available need cmd loc w r w' :
    dependable cf co po cg need ->
    (forall kd a o s b p out k c' p' out', cg kd a o s b p out <> (Crash k, c', p', out')) ->
    wf cf (w_st w) -> legitimate cf po cmd loc (w_st w) -> room_for cf need cmd <= length (w_out w) ->
    exec_command cf C P co po cg cmd loc w = (r, w') ->
    (exists n, r = Ok n) \/
    (needs_handle cmd loc (w_st w) /\ exists e, r = Err e /\ no_handle co (w_st w') e).
  Proof.
    intros D NC W L R H. apply (command_explained cf Hcf C P co po cg Hk) in H; [|exact W].
    destruct r as [n|e|k]; cbn [explained] in H.
    - left; eauto.
    - right. destruct (refused_why need D _ _ _ _ _ _ L R H) as [X Y]. split; [exact X|eauto].
    - destruct (never_aborts need D _ _ _ _ NC H).
  Qed.

  (** ** Byte strings *)
  Lemma ok_or_nocrash {A} (o : option A) e k : ok_or o e <> Crash k.
  Proof. destruct o; discriminate. Qed.
End Avail.
