(** Props_Measure.v -- walking the context tree and what is measured: C15, C26. *)
From Verif Require Import Base Errors Types StateOps Env Wire Instance Commands Lib Spec Exec
  Effects Forest DestroyProofs History Contract Steps Reach CommandSpecs Walk Measure Toy.
Local Open Scope nat_scope.

(** ** C26: walking a chain up and down visits the same contexts *)

(** From every context in use the iterator can be created, and any interleaving
    of forward and backward calls behaves like taking the contexts of the
    parent chain off the two ends of a list: no error, no omission, no
    repetition. *)
Theorem C26_double_ended :
  forall cf s i, config_ok cf -> wf cf s -> live_at s i ->
    exists cts it, lineage s i cts /\ iter_new cf i (st_contexts s) = Ok it /\
      forall ends, calls cf ends (st_contexts s) it = map (option_map (@Ok context)) (pops ends cts).
Proof.
  intros cf s i Hcf W L. destruct (lineage_ex cf s (wf_forest _ _ W) i L) as (cts & Hl).
  destruct (walk_new cf Hcf s (wf_forest _ _ W) i cts Hl) as (it & H1 & H2 & _). eauto.
Qed.
Print Assumptions C26_double_ended.

(** A loop over the iterator visits the parent chain from the context to the
    root, the reversed loop visits the same contexts in the opposite order. *)
Theorem C26_up_and_down :
  forall cf s i cts, config_ok cf -> wf cf s -> lineage s i cts ->
    exists it, iter_new cf i (st_contexts s) = Ok it /\ it_path_len it = length cts /\
      length cts <= max_handles cf /\
      forall n, max_handles cf < n ->
        iter_collect cf false n (st_contexts s) it = Ok cts /\
        iter_collect cf true n (st_contexts s) it = Ok (rev cts).
Proof.
  intros cf s i cts Hcf W Hl.
  destruct (walk_new cf Hcf s (wf_forest _ _ W) i cts Hl) as (it & H1 & _ & H3 & H4 & H5).
  exists it. split; [exact H1|]. split; [exact H5|]. split; [|auto].
  destruct Hl as (l & P & Fa). pose proof (path_bound _ _ _ P) as B.
  rewrite (fo_size _ _ (wf_forest _ _ W)) in B.
  assert (E : length l = length cts) by (clear - Fa; induction Fa; cbn; congruence). lia.
Qed.
Print Assumptions C26_up_and_down.

(** The chain is unique, starts with the context itself, ends with a root, each
    context is followed by its parent, and no slot occurs twice. *)
Theorem C26_chain :
  forall cf s i cts, config_ok cf -> wf cf s -> lineage s i cts ->
    (forall cts', lineage s i cts' -> cts' = cts) /\
    (exists c, at_slot s i c /\ hd_error cts = Some c) /\
    (exists r l, cts = l ++ [r] /\ c_parent r = ROOT /\ forall c, In c l -> c_parent c <> ROOT) /\
    (forall l a b l', cts = l ++ a :: b :: l' -> at_slot s (c_parent a) b) /\
    (exists slots, NoDup slots /\ Forall2 (at_slot s) slots cts) /\
    (forall c, In c cts -> live c).
Proof.
  intros cf s i cts Hcf W Hl. split; [intros; eapply lineage_det; eauto|].
  destruct Hl as (l & P & Fa).
  split.
  { inversion P; subst; inversion Fa; subst; eauto. }
  split.
  { clear W. revert cts Fa. induction P as [i c Hc L Hp|i c l Hc L Hp P IH]; intros cts Fa.
    - inversion Fa as [|? d ? ? Hd Fr]; subst. inversion Fr; subst. exists d, []. split; [reflexivity|].
      rewrite (at_det _ _ _ _ Hd Hc). split; [exact Hp|intros ? []].
    - inversion Fa as [|? d ? ds Hd Fr]; subst. destruct (IH _ Fr) as (r & l0 & -> & H1 & H2).
      exists r, (d :: l0). split; [reflexivity|]. split; [exact H1|]. intros x [<-|Hx]; [|auto].
      rewrite (at_det _ _ _ _ Hd Hc). exact Hp. }
  split.
  { clear W. revert cts Fa. induction P as [i c Hc L Hp|i c l Hc L Hp P IH]; intros cts Fa.
    - inversion Fa as [|? d ? ? Hd Fr]; subst. inversion Fr; subst. intros l0 a b l' E. destruct l0 as [|? [|]]; discriminate.
    - inversion Fa as [|? d ? ds Hd Fr]; subst. intros l0 a b l' E. destruct l0 as [|x l0]; cbn [app] in E; injection E as -> ->.
      + rewrite (at_det _ _ _ _ Hd Hc). destruct (path_head _ _ _ P) as (l2 & ->).
        inversion Fr; subst; assumption.
      + eapply IH; eauto. }
  split; [exists l; split; [eapply path_NoDup; eauto|exact Fa]|].
  intros c Hin. pose proof (path_live _ _ _ P) as L. clear P W.
  induction Fa as [|a b l' cs Hab Fa IH]; [destruct Hin|]. destruct Hin as [->|Hin].
  - destruct (L a (or_introl eq_refl)) as (d & Hd & Ld). rewrite (at_det _ _ _ _ Hab Hd). exact Ld.
  - apply IH; [exact Hin|]. intros x Hx; apply L; right; exact Hx.
Qed.
Print Assumptions C26_chain.

(** Even on a corrupted array of contexts -- dangling parents, cycles, wrong
    child sets -- creating the iterator and calling it in any order ends
    without an out-of-range access or an endless loop, and so do loops over
    it. *)
Theorem C26_corrupted :
  forall cf l i, config_ok cf ->
    (forall k, iter_new cf i l <> Crash k) /\
    forall it, iter_new cf i l = Ok it ->
      (forall ends r k, In (Some r) (calls cf ends l it) -> r <> Crash k) /\
      (forall back n k, max_handles cf < n -> iter_collect cf back n l it <> Crash k).
Proof.
  intros cf l i Hcf. split; [apply iter_new_no_crash|].
  intros it E. pose proof (sound_new cf Hcf l i it E) as S. split.
  - intros ends r k H. exact (calls_no_crash cf l ends it S r H k).
  - intros back n k Hn. assert (Z : it_count it = 0).
    { unfold iter_new in E. destruct (iter_new_loop _ _ l i 0); try discriminate. injection E as <-. reflexivity. }
    apply collect_no_crash; [exact S|lia|lia].
Qed.
Print Assumptions C26_corrupted.

Definition chain3 : list (command * N) :=
  [(init_default, 5%N); (derive_to H0 (2 ^ 29 + 2 ^ 27) 7 0, 5%N); (derive (Hn 1) (2 ^ 31 + 2 ^ 30) 8, 0%N)].
Lemma chain3_reach : reachable toy_cf (toy_state chain3).
Proof. apply toy_reachable; toy_wf. Qed.
Definition chain_of (s : state) (i : nat) : list context :=
  match chain_fn 4 s i with Some l => l | None => [] end.
Lemma chain_of_ok s i : chain_of s i <> [] -> lineage s i (chain_of s i).
Proof.
  unfold chain_of. destruct (chain_fn 4 s i) as [l|] eqn:E; [|congruence]. intros _. eapply chain_fn_ok; eauto.
Qed.
(** Non-vacuity: a chain of three, walked from both ends in turn; and a cycle,
    which is refused. *)
Example C26_three :
  reachable toy_cf (toy_state chain3) /\
  lineage (toy_state chain3) 2 (chain_of (toy_state chain3) 2) /\
  map (fun c => tci_type (c_tci c)) (chain_of (toy_state chain3) 2) = [8%N; 7%N; 0%N] /\
  exists it, iter_new toy_cf 2 (st_contexts (toy_state chain3)) = Ok it /\
    map (fun o => match o with Some (Ok c) => Some (tci_type (c_tci c)) | _ => None end)
        (calls toy_cf [true; false; true; false; true] (st_contexts (toy_state chain3)) it)
    = [Some 0%N; Some 8%N; Some 7%N; None; None].
Proof.
  split; [exact chain3_reach|]. split; [apply chain_of_ok; vm_compute; discriminate|].
  split; [vm_compute; reflexivity|]. eexists. split; [vm_compute; reflexivity|vm_compute; reflexivity].
Qed.
Example C26_cycle :
  let c p := mkCtx H0 (tci_new toy_cf) 0 0 p Normal Active false false true true true in
  iter_new toy_cf 0 [c 1; c 0; c 2; c 3] = Err (InternalError TciNodeCountExceeded).
Proof. vm_compute. reflexivity. Qed.

(** ** C15: the CDI digest binds the whole measurement chain *)

(** When the digest of context [i] is computed successfully, the back end's
    hasher has been fed, after initialisation and in this order: for every
    context from [i] to the root its complete measurement record and its X.509
    permission, then the profile description if one of them asked for it, then
    the platform's certificate chain if one of them asked for it -- and
    nothing else. *)
Theorem C15_input :
  forall cf C P (co : crypto_ops C) (po : platform_ops P) i cts w dg w',
    config_ok cf -> wf cf (w_st w) -> lineage (w_st w) i cts ->
    compute_measurement_hash cf C P co po i w = (Ok dg, w') ->
    exists info dice c0 c1 c2,
      extra_input cf po (w_st w) cts (w_p w) info dice (w_p w') /\
      co_hasher co (w_c w) = (inl tt, c0) /\ co_hash_initialize co c0 = (inl tt, c1) /\
      absorbs co c1 (flat_map node_input cts ++ info ++ dice) c2 /\
      co_hash_finish co c2 = (inl dg, w_c w') /\
      w_st w' = w_st w /\ w_out w' = w_out w.
Proof.
  intros cf C P co po i cts w dg w' Hcf W L H.
  destruct (cmh_keeps cf C P co po i w _ _ H) as [K1 K2].
  apply (cmh_spec cf Hcf C P co po i cts) in H; [|apply W|exact L].
  destruct H as [(d & c0 & c1 & c2 & ii & dd & E & H1 & H2 & H3 & H4 & H5)|[(e & E)|[(_ & e & E)|[[_ E]|(_ & k & p & E & _)]]]];
    try discriminate.
  injection E as ->. exists ii, dd, c0, c1, c2. auto 10.
Qed.
Print Assumptions C15_input.

(** Two chains whose hashed bytes agree have the same measurement records and
    permissions at every position, and agree on whether the profile
    description is included -- provided equally many bytes of certificate
    chain are included (in particular when neither chain asks for it, or both
    do on the same platform). *)
Theorem C15_injective_partial :
  forall cf P P' (po : platform_ops P) (po' : platform_ops P') s s' i i' cts cts' p p' info info' dice dice' q q',
    config_ok cf -> wf cf s -> wf cf s' -> lineage s i cts -> lineage s' i' cts' ->
    extra_input cf po s cts p info dice q -> extra_input cf po' s' cts' p' info' dice' q' ->
    length (concat dice) = length (concat dice') ->
    concat (flat_map node_input cts ++ info ++ dice) = concat (flat_map node_input cts' ++ info' ++ dice') ->
    Forall2 (fun a b => c_tci a = c_tci b /\ c_x509 a = c_x509 b) cts cts' /\
    info = info' /\ concat dice = concat dice' /\
    ((exists c, In c cts /\ c_info c = true) <-> (exists c, In c cts' /\ c_info c = true)).
Proof.
  intros cf P P' po po' s s' i i' cts cts' p p' info info' dice dice' q q' _ W W' L L' X X' EL E.
  exact (input_injective cf po po' s s' i i' cts cts' p info dice q p' info' dice' q' W W' L L' X X' E EL).
Qed.
Print Assumptions C15_injective_partial.

(** The bytes that are hashed depend on nothing else: chains that agree on the
    measured fields and the two input switches, with the same features, are
    hashed alike. *)
Theorem C15_depends_only_on :
  forall cf P (po : platform_ops P) s s' cts cts' p info dice q info' dice' q',
    st_support s' = st_support s ->
    Forall2 (fun a b => c_tci a = c_tci b /\ c_x509 a = c_x509 b /\ c_info a = c_info b /\ c_dice a = c_dice b) cts cts' ->
    extra_input cf po s cts p info dice q -> extra_input cf po s' cts' p info' dice' q' ->
    flat_map node_input cts = flat_map node_input cts' /\ info = info' /\ dice = dice' /\ q = q'.
Proof.
  intros cf P po s s' cts cts' p info dice q info' dice' q' ES Fa X X'.
  assert (N : flat_map node_input cts = flat_map node_input cts').
  { clear - Fa. induction Fa as [|a b l l' (E1 & E2 & _) Fa IH]; [reflexivity|].
    cbn [flat_map]. rewrite IH. unfold node_input. rewrite E1, E2. reflexivity. }
  assert (T : forall (f : context -> bool),
     Forall2 (fun a b => f a = f b) cts cts' ->
     (exists c, In c cts /\ f c = true) -> (forall c, In c cts' -> f c = false) -> False).
  { clear. intros f F2 (c & Hc & Hf) Hn. induction F2 as [|a b l l' E F2 IH]; [destruct Hc|].
    destruct Hc as [->|Hc]; [rewrite (Hn b (or_introl eq_refl)) in E; congruence|].
    apply IH; [exact Hc|]. intros x Hx; apply Hn; right; exact Hx. }
  assert (T' : forall (f : context -> bool),
     Forall2 (fun a b => f a = f b) cts cts' ->
     (exists c, In c cts' /\ f c = true) -> (forall c, In c cts -> f c = false) -> False).
  { clear. intros f F2 (c & Hc & Hf) Hn. induction F2 as [|a b l l' E F2 IH]; [destruct Hc|].
    destruct Hc as [->|Hc]; [rewrite (Hn a (or_introl eq_refl)) in E; congruence|].
    apply IH; [exact Hc|]. intros x Hx; apply Hn; right; exact Hx. }
  assert (F1 : Forall2 (fun a b => c_info a = c_info b) cts cts').
  { clear - Fa. induction Fa as [|a b l l' H Fa IH]; constructor; [tauto|exact IH]. }
  assert (F2 : Forall2 (fun a b => c_dice a = c_dice b) cts cts').
  { clear - Fa. induction Fa as [|a b l l' H Fa IH]; constructor; [tauto|exact IH]. }
  split; [exact N|].
  destruct X as (pi & X1 & X2), X' as (pi' & X1' & X2').
  assert (E1 : info = info' /\ pi = pi').
  { destruct X1 as [(A & -> & ->)|(A & v & k & p1 & V1 & V2 & ->)], X1' as [(A' & -> & ->)|(A' & v' & k' & p1' & V1' & V2' & ->)].
    - auto.
    - exfalso; exact (T' _ F1 A' A).
    - exfalso; exact (T _ F1 A A').
    - rewrite V1 in V1'. injection V1' as <- <-. rewrite V2 in V2'. injection V2' as <- <-. rewrite ES. auto. }
  destruct E1 as [-> <-]. split; [reflexivity|].
  assert (D : forall off buf x d y, chain_read po off buf x d y -> forall d' y', chain_read po off buf x d' y' -> d = d' /\ y = y').
  { clear. induction 1 as [off buf x e b x' H|off buf x n b x1 ch x' H L1 L2 Hr IH]; intros d' y' H';
      inversion H' as [? ? ? ? ? ? Q|? ? ? ? ? ? ? ? Q Q1 Q2 Q3]; subst; rewrite H in Q; try discriminate;
      injection Q as <- <- <-; [auto|]. destruct (IH _ _ Q3) as [-> ->]. auto. }
  destruct X2 as [(A & -> & ->)|(A & R)], X2' as [(A' & -> & ->)|(A' & R')].
  - auto.
  - exfalso; exact (T' _ F2 A' A).
  - exfalso; exact (T _ F2 A A').
  - destruct (D _ _ _ _ _ R _ _ R') as [-> ->]. auto.
Qed.
Print Assumptions C15_depends_only_on.

(** Non-vacuity: the chain of three above, whose leaf asked for both extra
    inputs. *)
Definition short_platform (chain : bytes) : platform_ops unit :=
  {| po_certificate_chain := fun off size buf p =>
       if (N.of_nat (length chain) <=? off)%N then (inr PECertificateChain, [], p)
       else let part := firstn (N.to_nat size) (skipn (N.to_nat off) chain) in
            (inl (N.of_nat (length part)), part, p);
     po_issuer_name := po_issuer_name toy_platform;
     po_signer_identifier := po_signer_identifier toy_platform;
     po_issuer_key_identifier := po_issuer_key_identifier toy_platform;
     po_vendor_id := po_vendor_id toy_platform;
     po_vendor_sku := po_vendor_sku toy_platform;
     po_auto_init_locality := po_auto_init_locality toy_platform;
     po_cert_validity := po_cert_validity toy_platform;
     po_subject_alt_name := po_subject_alt_name toy_platform;
     po_ueid := po_ueid toy_platform |}.

(** Reading a short chain gives the chain. *)
Lemma short_read chain : chain <> [] -> length chain < 2048 -> all_bytes chain ->
  exists d, chain_read (short_platform chain) 0 (repeat 0%N 2048) tt d tt /\ concat d = chain.
Proof.
  intros N L B.
  assert (E : (N.of_nat (length chain) mod 2 ^ 32 = N.of_nat (length chain))%N).
  { apply N.mod_small. apply N.lt_trans with 2048%N; [lia|reflexivity]. }
  eexists. split.
  - eapply cr_more with (n := N.of_nat (length chain)) (b := chain) (p1 := tt).
    + unfold short_platform. cbn [po_certificate_chain].
      destruct (N.leb_spec (N.of_nat (length chain)) 0).
      { destruct chain; [contradiction|cbn [length] in *; lia]. }
      change (N.to_nat 0) with 0. cbn [skipn]. rewrite firstn_all2 by lia. reflexivity.
    + rewrite E. lia.
    + rewrite E. change (2 ^ 32)%N with 4294967296%N. lia.
    + eapply cr_end. unfold short_platform. cbn [po_certificate_chain]. rewrite E.
      destruct (N.leb_spec (N.of_nat (length chain)) (0 + N.of_nat (length chain))); [reflexivity|lia].
  - cbn [concat]. rewrite app_nil_r, E, Nat2N.id. unfold to_buf.
    rewrite firstn_map, firstn_firstn, Nat.min_l by lia.
    rewrite firstn_app, firstn_all, Nat.sub_diag, firstn_O, app_nil_r.
    clear - B. induction B as [|b l Hb B IH]; [reflexivity|]. cbn [map]. rewrite IH, N.mod_small by exact Hb. reflexivity.
Qed.

Example C15_computed :
  let s := toy_state chain3 in
  let cts := chain_of s 2 in
  lineage s 2 cts /\ map c_info cts = [true; false; false] /\ map c_dice cts = [true; false; false] /\
  exists info dice dg w',
    compute_measurement_hash toy_cf toy_c unit (toy_crypto counting) (short_platform toy_chain) 2
      (mkWorld s toy_c0 tt []) = (Ok dg, w') /\
    extra_input toy_cf (short_platform toy_chain) s cts tt info dice tt /\
    concat dice = toy_chain /\
    tc_acc (w_c w') = concat (flat_map node_input cts ++ info) ++ toy_chain.
Proof.
  cbv zeta. split; [apply chain_of_ok; vm_compute; discriminate|].
  split; [vm_compute; reflexivity|]. split; [vm_compute; reflexivity|].
  destruct (short_read toy_chain) as (d & R & Ed).
  { discriminate. }
  { apply Nat.ltb_lt; reflexivity. }
  { repeat constructor. }
  exists [info_input toy_cf all_features 1 2], d. do 2 eexists. split; [vm_compute; reflexivity|].
  split; [|split; [exact Ed|vm_compute; reflexivity]].
  exists tt. split.
  - right. split.
    + apply existsb_exists. vm_compute. reflexivity.
    + exists 1%N, 2%N, tt. split; [reflexivity|]. split; [reflexivity|]. f_equal.
  - right. split; [|exact R]. apply existsb_exists. vm_compute. reflexivity.
Qed.

(** The full statement -- whatever is asked for, equal bytes mean equal chains --
    does not hold: nothing separates the contexts from the certificate chain,
    so a platform chain that looks like a context makes a shorter chain of
    contexts with, and a longer one without, the certificate chain hash alike.
    (Both states are reachable on the same platform, the shorter one from
    [new_auto_init].) *)
Definition derive0 (h : bytes) (flags ty svn : N) : command :=
  CmdDeriveContext {| dc_handle := h; dc_data := data ty; dc_flags := flags; dc_tci_type := ty;
                      dc_target_locality := 0; dc_svn := svn |}.
Definition long_chain : state :=
  toy_state [(init_default, 9%N); (derive0 H0 (2 ^ 25) 7 0, 9%N); (derive0 (Hn 1) 0 8 0, 9%N)].
Definition short_world : world toy_c unit :=
  snd (dpe_new_auto_init toy_cf toy_c unit (toy_crypto counting) toy_platform 7 (data 7) toy_w0).
Definition short_chain : state := w_st (toy_run toy_env [(derive0 H0 (2 ^ 30) 8 0, 9%N)] short_world).
Definition bad_chain : bytes := repeat 0%N 68 ++ [9; 0; 0; 0; 0; 0; 0; 0; 1]%N.

Lemma short_chain_reach : reachable toy_cf short_chain.
Proof.
  unfold reachable, short_chain.
  assert (H : history toy_cf any_env any_command [EvNewMeasured 7 (data 7) (fst (dpe_new_auto_init toy_cf toy_c unit (toy_crypto counting) toy_platform 7 (data 7) toy_w0))] (w_st short_world)).
  { eapply (hi_measured _ _ _ all_features 0 toy_env); [exact Logic.I|reflexivity|reflexivity|vm_compute; repeat split; repeat constructor|].
    exists toy_c0, tt, toy_buf. unfold short_world.
    change (dpe_new_auto_init toy_cf (e_C toy_env) (e_P toy_env) (e_crypto toy_env) (e_platform toy_env) 7 (data 7)
              (mkWorld (state_new toy_cf all_features 0) toy_c0 tt toy_buf))
      with (dpe_new_auto_init toy_cf toy_c unit (toy_crypto counting) toy_platform 7 (data 7) toy_w0).
    destruct (dpe_new_auto_init toy_cf toy_c unit (toy_crypto counting) toy_platform 7 (data 7) toy_w0) as [r [s' c' p' o']].
    exists c', p', o'. reflexivity. }
  eapply (toy_run_history any_env any_command toy_env Logic.I _ _ _ H); [toy_wf|intros; exact Logic.I].
Qed.

Theorem C15_injective_refuted :
  exists cf P (po : platform_ops P) s s' i i' cts cts' p info info' dice dice' q q',
    config_ok cf /\ reachable cf s /\ reachable cf s' /\ lineage s i cts /\ lineage s' i' cts' /\
    extra_input cf po s cts p info dice q /\ extra_input cf po s' cts' p info' dice' q' /\
    concat (flat_map node_input cts ++ info ++ dice) = concat (flat_map node_input cts' ++ info' ++ dice') /\
    length cts <> length cts'.
Proof.
  destruct (short_read bad_chain) as (d & R & Ed).
  { discriminate. }
  { apply Nat.ltb_lt; reflexivity. }
  { repeat constructor. }
  exists toy_cf, unit, (short_platform bad_chain), short_chain, long_chain, 1, 2,
    (chain_of short_chain 1), (chain_of long_chain 2), tt, [], [], d, [], tt, tt.
  split; [exact toy_cf_ok|]. split; [exact short_chain_reach|].
  split; [apply toy_reachable; toy_wf|].
  split; [apply chain_of_ok; vm_compute; discriminate|].
  split; [apply chain_of_ok; vm_compute; discriminate|].
  split.
  { exists tt. split.
    - left. split; [|auto]. apply Forall_forall. vm_compute. repeat constructor.
    - right. split; [|exact R]. apply existsb_exists. vm_compute. reflexivity. }
  split.
  { exists tt. split; left; (split; [|auto]); apply Forall_forall; vm_compute; repeat constructor. }
  split; [|vm_compute; discriminate].
  rewrite !concat_app, Ed. vm_compute. reflexivity.
Qed.
Print Assumptions C15_injective_refuted.
