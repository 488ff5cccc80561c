(** Codec.v -- lemmas for the wire formats and the response buffers. *)
From Coq Require Import ZifyBool ZifyNat ZifyN.
From Verif Require Import Base Errors Types StateOps Env Wire Instance Commands Response RespBuf
  Lib Spec Exec Effects DestroyProofs Steps History WireSpec.
Local Open Scope nat_scope.

(** ** Fixed layouts *)

Lemma split_fields_app fs rest :
  split_fields (map (@length N) fs) (concat fs ++ rest) = Some fs.
Proof.
  induction fs as [|f fs IH]; [reflexivity|].
  cbn [map concat split_fields]. rewrite <- app_assoc.
  replace (Nat.leb (length f) (length (f ++ concat fs ++ rest))) with true
    by (symmetry; apply Nat.leb_le; rewrite app_length; lia).
  rewrite skipn_app, Nat.sub_diag, skipn_all, firstn_app, Nat.sub_diag, firstn_all.
  cbn [skipn firstn app]. rewrite IH. cbn. rewrite app_nil_r. reflexivity.
Qed.

Lemma split_fields_inv ls b fs : split_fields ls b = Some fs ->
  map (@length N) fs = ls /\ exists rest, b = concat fs ++ rest.
Proof.
  revert b fs; induction ls as [|n ls IH]; intros b fs H; cbn [split_fields] in H.
  - injection H as <-. split; [reflexivity|]. exists b. reflexivity.
  - destruct (Nat.leb_spec n (length b)) as [Hn|Hn]; [|discriminate].
    destruct (split_fields ls (skipn n b)) as [fs'|] eqn:E; [|discriminate].
    injection H as <-. destruct (IH _ _ E) as (Hl & rest & Hr).
    split.
    + cbn [map]. rewrite Hl, firstn_length, Nat.min_l by exact Hn. reflexivity.
    + exists rest. cbn [concat]. rewrite <- app_assoc, <- Hr. symmetry; apply firstn_skipn.
Qed.

Lemma split_fields_none ls b : split_fields ls b = None <-> length b < list_sum ls.
Proof.
  revert b; induction ls as [|n ls IH]; intros b; cbn [split_fields list_sum].
  - split; [discriminate|]. cbn. lia.
  - change (list_sum (n :: ls)) with (n + list_sum ls).
    destruct (Nat.leb_spec n (length b)) as [Hn|Hn].
    + specialize (IH (skipn n b)). rewrite skipn_length in IH.
      destruct (split_fields ls (skipn n b)); cbn.
      * split; [discriminate|]. intros H. assert (Some l = None) by (apply IH; lia). discriminate.
      * split; [|reflexivity]. intros _. destruct IH as [IH _]. specialize (IH eq_refl). lia.
    + split; [lia|reflexivity].
Qed.

Lemma split_fields_at ls fs rest :
  map (@length N) fs = ls -> split_fields ls (concat fs ++ rest) = Some fs.
Proof. intros <-. apply split_fields_app. Qed.

Lemma concat_length fs : length (concat fs) = list_sum (map (@length N) fs).
Proof. induction fs as [|f fs IH]; [reflexivity|]. cbn [concat map]. rewrite app_length, IH. reflexivity. Qed.

Lemma all_bytes_app a b : all_bytes (a ++ b) <-> all_bytes a /\ all_bytes b.
Proof. unfold all_bytes. apply Forall_app. Qed.

Lemma all_bytes_concat fs : all_bytes (concat fs) <-> Forall all_bytes fs.
Proof.
  induction fs as [|f fs IH]; cbn [concat].
  - split; constructor.
  - rewrite all_bytes_app, IH. split; [intros [A B]; constructor; assumption|].
    intros H; inversion H; auto.
Qed.

Lemma nth_firstn {A} (l : list A) n i : i < n -> nth_error (firstn n l) i = nth_error l i.
Proof.
  revert n i; induction l as [|a l IH]; intros [|n] [|i] H; cbn; auto; try lia. apply IH; lia.
Qed.
Lemma nth_repeat_some {A} (a : A) n i : i < n -> nth_error (repeat a n) i = Some a.
Proof. revert i; induction n as [|n IH]; intros [|i] H; cbn; auto; try lia. apply IH; lia. Qed.

Lemma all_bytes_firstn n b : all_bytes b -> all_bytes (firstn n b).
Proof.
  intros H. rewrite <- (firstn_skipn n b) in H. apply all_bytes_app in H as [H _]. exact H.
Qed.
Lemma all_bytes_skipn n b : all_bytes b -> all_bytes (skipn n b).
Proof.
  intros H. rewrite <- (firstn_skipn n b) in H. apply all_bytes_app in H as [_ H]. exact H.
Qed.
Lemma all_bytes_zero n : all_bytes (repeat 0%N n).
Proof. induction n; constructor; [reflexivity|assumption]. Qed.

(** Words. *)
Lemma le4 v : u32 v -> le_val (le_bytes 4 v) = v.
Proof. intros H. apply le_val_le_bytes. exact H. Qed.
Lemma le2 v : (v < 2 ^ 16)%N -> le_val (le_bytes 2 v) = v.
Proof. intros H. apply le_val_le_bytes. exact H. Qed.
Lemma word_back f : all_bytes f -> length f = 4 -> le_bytes 4 (le_val f) = f.
Proof. intros H <-. apply le_bytes_le_val. exact H. Qed.
Lemma half_back f : all_bytes f -> length f = 2 -> le_bytes 2 (le_val f) = f.
Proof. intros H <-. apply le_bytes_le_val. exact H. Qed.
Lemma word_u32 f : all_bytes f -> length f = 4 -> u32 (le_val f).
Proof. intros H Hl. pose proof (le_val_bound f H) as B. rewrite Hl in B. exact B. Qed.

Lemma string_of n f : all_bytes f -> length f = n -> byte_string n f.
Proof. intros H L; split; [exact L|exact H]. Qed.

(** ** Commands *)

Lemma app_cons (a b : bytes) fs : a ++ concat (b :: fs) = concat (a :: b :: fs).
Proof. reflexivity. Qed.

Lemma command_bytes_fields c : command_bytes c = concat (command_fields c).
Proof.
  destruct c as [| | |[]|[]| | | |];
    cbn [command_bytes command_fields concat certify_cmd_bytes sign_cmd_bytes];
    unfold certify_cmd_bytes, sign_cmd_bytes; rewrite ?app_nil_r; reflexivity.
Qed.

Section Cmd.
  Variable cf : config.

  Lemma profile_word : u32 (profile_id (prof cf)).
  Proof. destruct (prof cf); reflexivity. Qed.

  Lemma id_u32 c : u32 (command_id c).
  Proof. destruct c; reflexivity. Qed.

  Lemma parse_hdr_ok id p rest : u32 id -> u32 p ->
    (id = 1%N \/ p = profile_id (prof cf)) ->
    parse_command_hdr cf (le_bytes 4 command_magic ++ le_bytes 4 id ++ le_bytes 4 p ++ rest) = Ok id.
  Proof.
    intros Hi Hp Hor. unfold parse_command_hdr.
    replace (le_bytes 4 command_magic ++ le_bytes 4 id ++ le_bytes 4 p ++ rest)
      with (concat [le_bytes 4 command_magic; le_bytes 4 id; le_bytes 4 p] ++ rest)
      by (cbn [concat]; rewrite app_nil_r, <- !app_assoc; reflexivity).
    rewrite split_fields_at by (cbn [map]; rewrite !length_le_bytes; reflexivity).
    rewrite !le4 by (assumption || reflexivity).
    rewrite N.eqb_refl. cbn [negb].
    destruct Hor as [->| ->]; [reflexivity|].
    rewrite N.eqb_refl. cbn [negb]. rewrite andb_false_r. reflexivity.
  Qed.

  Lemma parse_hdr_inv b id : all_bytes b -> parse_command_hdr cf b = Ok id ->
    exists p rest, b = le_bytes 4 command_magic ++ le_bytes 4 id ++ le_bytes 4 p ++ rest /\ u32 id /\ u32 p /\ (id = 1%N \/ p = profile_id (prof cf)).
  Proof.
    intros Hb H. unfold parse_command_hdr in H.
    destruct (split_fields [4; 4; 4] b) as [[|m [|i [|p [|]]]]|] eqn:E; try discriminate.
    apply split_fields_inv in E as (El & rest & ->). cbn [map] in El.
    injection El as Lm Li Lp. cbn [concat] in Hb. rewrite app_nil_r in Hb.
    rewrite !all_bytes_app in Hb. destruct Hb as [(Bm & Bi & Bp) _].
    destruct (N.eqb_spec (le_val m) command_magic) as [Em|]; cbn [negb] in H; [|discriminate].
    destruct (N.eqb_spec (le_val i) 1) as [E1|E1]; cbn [negb andb] in H.
    - apply Ok_inj in H as <-. exists (le_val p), rest.
      rewrite <- Em, !word_back by assumption.
      cbn [concat]. rewrite app_nil_r, <- !app_assoc.
      repeat split; auto using word_u32.
    - destruct (N.eqb_spec (le_val p) (profile_id (prof cf))) as [Ep|]; cbn [negb] in H; [|discriminate].
      apply Ok_inj in H as <-. exists (le_val p), rest.
      rewrite <- Em, !word_back by assumption.
      cbn [concat]. rewrite app_nil_r, <- !app_assoc.
      repeat split; auto using word_u32.
  Qed.

  Lemma skip_hdr id p rest :
    skipn hdr_size (le_bytes 4 command_magic ++ le_bytes 4 id ++ le_bytes 4 p ++ rest) = rest.
  Proof. reflexivity. Qed.

  Lemma raw_bit f : sf_is_raw f = N.testbit f 0.
  Proof. apply (contains_bit f 0). Qed.

  Lemma body_fields c rest ls : map (@length N) (command_fields c) = ls ->
    split_fields ls (command_bytes c ++ rest) = Some (command_fields c).
  Proof. intros H. rewrite command_bytes_fields. apply split_fields_at. exact H. Qed.

  Ltac fields :=
    repeat match goal with
           | H : byte_string _ _ |- _ => destruct H
           | H : _ /\ _ |- _ => destruct H
           | H : certify_wf _ _ |- _ => red in H
           | H : sign_wf _ _ _ |- _ => red in H
           end;
    cbn [command_fields map]; rewrite ?length_le_bytes; unfold handle_size; congruence.

  Lemma deserialize_serialize c rest : command_wf cf c -> for_profile cf c ->
    deserialize_command cf (serialize_command cf c ++ rest) = Ok c.
  Proof.
    intros W F. unfold serialize_command, command_hdr, deserialize_command.
    rewrite <- !app_assoc, parse_hdr_ok
      by first [apply id_u32 | apply profile_word | right; reflexivity].
    unfold rbind at 1. rewrite skip_hdr.
    destruct c as [|f|d|[c|c|c]|[c|c|c|c]|h f|h|o z|u]; cbn [command_id command_wf for_profile] in *;
      cbv beta iota.
    - reflexivity.
    - rewrite body_fields by fields. cbn [command_fields]. rewrite le4 by exact W. reflexivity.
    - rewrite body_fields by fields. cbn [command_fields].
      rewrite !le4 by apply W. destruct d; reflexivity.
    - unfold parse_certify_command. rewrite F. unfold parse_certify.
      rewrite (body_fields (CmdCertifyKey (CertifyP256 c))) by fields. cbn [command_fields rbind].
      rewrite !le4 by apply W. destruct c; reflexivity.
    - unfold parse_certify_command. rewrite F. unfold parse_certify.
      rewrite (body_fields (CmdCertifyKey (CertifyP384 c))) by fields. cbn [command_fields rbind].
      rewrite !le4 by apply W. destruct c; reflexivity.
    - unfold parse_certify_command. rewrite F. unfold parse_certify.
      rewrite (body_fields (CmdCertifyKey (CertifyMldsa87 c))) by fields. cbn [command_fields rbind].
      rewrite !le4 by apply W. destruct c; reflexivity.
    - unfold parse_sign_command. rewrite F. unfold parse_sign.
      rewrite (body_fields (CmdSign (SignP256 c))) by fields. cbn [command_fields rbind].
      rewrite !le4 by apply W. destruct c; reflexivity.
    - unfold parse_sign_command. rewrite F. unfold parse_sign.
      rewrite (body_fields (CmdSign (SignP384 c))) by fields. cbn [command_fields rbind].
      rewrite !le4 by apply W. destruct c; reflexivity.
    - destruct F as [F Fr]. unfold parse_sign_command. rewrite F. unfold parse_sign_mldsa87, parse_sign.
      rewrite (body_fields (CmdSign (SignMldsa87 c)) rest [handle_size; 48; 4; 64]) by fields.
      rewrite command_bytes_fields.
      replace (concat (command_fields (CmdSign (SignMldsa87 c))) ++ rest)
        with (concat [sg_handle c; sg_label c; le_bytes 4 (sg_flags c)] ++ (sg_digest c ++ rest))
        by (cbn [command_fields concat]; rewrite ?app_nil_r, <- ?app_assoc; reflexivity).
      rewrite split_fields_at by fields.
      rewrite le4 by apply W. rewrite raw_bit, Fr. cbn [command_fields rbind].
      rewrite !le4 by apply W. destruct c; reflexivity.
    - destruct F as (F & Fr & Fs). unfold parse_sign_command. rewrite F. unfold parse_sign_mldsa87.
      rewrite (body_fields (CmdSign (SignMldsa87Raw c)) rest [handle_size; 48; 4; 4; mldsa87_raw_max]) by fields.
      rewrite command_bytes_fields.
      replace (concat (command_fields (CmdSign (SignMldsa87Raw c))) ++ rest)
        with (concat [sr_handle c; sr_label c; le_bytes 4 (sr_flags c)] ++ (le_bytes 4 (sr_size c) ++ sr_raw c ++ rest))
        by (cbn [command_fields concat]; rewrite ?app_nil_r, <- ?app_assoc; reflexivity).
      rewrite split_fields_at by fields.
      rewrite le4 by apply W. rewrite raw_bit, Fr. cbn [command_fields rbind].
      rewrite !le4 by apply W.
      replace (N.ltb (N.of_nat mldsa87_raw_max) (sr_size c)) with false
        by (symmetry; apply N.ltb_ge; exact Fs).
      cbn [rbind]. destruct c; reflexivity.
    - rewrite body_fields by fields. cbn [command_fields]. rewrite le4 by apply W. reflexivity.
    - rewrite body_fields by fields. reflexivity.
    - rewrite body_fields by fields. cbn [command_fields]. rewrite !le4 by apply W. reflexivity.
    - rewrite body_fields by fields. cbn [command_fields].
      rewrite !le4 by apply W. destruct u; reflexivity.
  Qed.

  (** What an accepted body looks like. *)
  Definition body_ok (body : bytes) (c : command) : Prop :=
    command_wf cf c /\ for_profile cf c /\ exists rest, body = command_bytes c ++ rest.

  Ltac parsed E :=
    apply split_fields_inv in E as (El & rest & ->);
    cbn [map] in El; injection El as; cbn [concat] in *;
    rewrite ?app_nil_r, ?all_bytes_app in *;
    repeat match goal with H : _ /\ _ |- _ => destruct H end.

  Ltac rebuilt rest :=
    repeat split; try (apply word_u32; assumption); try assumption; try reflexivity;
    exists rest; rewrite command_bytes_fields; cbn [command_fields concat dc_handle dc_data dc_flags
      dc_tci_type dc_target_locality dc_svn uc_parent_handle uc_data uc_reserved uc_tci_type uc_reserved_svn
      ck_handle ck_flags ck_format ck_label sg_handle sg_label sg_flags sg_digest
      sr_handle sr_label sr_flags sr_size sr_raw];
    rewrite !word_back by assumption; rewrite ?app_nil_r, <- ?app_assoc; reflexivity.

  Lemma certify_body lbl b c : all_bytes b -> parse_certify lbl b = Ok c ->
    certify_wf lbl c /\ exists rest, b = certify_cmd_bytes c ++ rest.
  Proof.
    intros Hb H. unfold parse_certify in H.
    destruct (split_fields _ b) as [[|h [|f [|fm [|l [|]]]]]|] eqn:E; try discriminate.
    apply Ok_inj in H as <-. parsed E.
    split; [repeat split; cbn; try assumption; try (apply word_u32; assumption)|].
    exists rest. unfold certify_cmd_bytes. cbn [ck_handle ck_flags ck_format ck_label].
    rewrite !word_back by assumption. rewrite <- !app_assoc. reflexivity.
  Qed.

  Lemma sign_body lbl dig b c : all_bytes b -> parse_sign lbl dig b = Ok c ->
    sign_wf lbl dig c /\ exists rest, b = sign_cmd_bytes c ++ rest.
  Proof.
    intros Hb H. unfold parse_sign in H.
    destruct (split_fields _ b) as [[|h [|l [|f [|d [|]]]]]|] eqn:E; try discriminate.
    apply Ok_inj in H as <-. parsed E.
    split; [repeat split; cbn; try assumption; try (apply word_u32; assumption)|].
    exists rest. unfold sign_cmd_bytes. cbn [sg_handle sg_flags sg_label sg_digest].
    rewrite !word_back by assumption. rewrite <- !app_assoc. reflexivity.
  Qed.

  Lemma certify_err lbl b e : parse_certify lbl b = Err e -> e = InvalidArgument.
  Proof. unfold parse_certify. destruct (split_fields _ b) as [[|? [|? [|? [|? [|]]]]]|]; congruence. Qed.
  Lemma sign_err lbl dig b e : parse_sign lbl dig b = Err e -> e = InvalidArgument.
  Proof. unfold parse_sign. destruct (split_fields _ b) as [[|? [|? [|? [|? [|]]]]]|]; congruence. Qed.
  Lemma certify_no_crash lbl b k : parse_certify lbl b <> Crash k.
  Proof. unfold parse_certify. destruct (split_fields _ b) as [[|? [|? [|? [|? [|]]]]]|]; congruence. Qed.
  Lemma sign_no_crash lbl dig b k : parse_sign lbl dig b <> Crash k.
  Proof. unfold parse_sign. destruct (split_fields _ b) as [[|? [|? [|? [|? [|]]]]]|]; congruence. Qed.

  Lemma certify_command_body b : all_bytes b ->
    match parse_certify_command cf b with
    | Ok c => body_ok b (CmdCertifyKey c)
    | Err e => e = InvalidArgument
    | Crash _ => False
    end.
  Proof.
    intros Hb. unfold parse_certify_command.
    destruct (prof cf) eqn:Ep;
      match goal with |- context[parse_certify ?l b] => destruct (parse_certify l b) as [c|e|k] eqn:E end;
      cbn [rbind]; try (apply certify_err in E; exact E); try (apply certify_no_crash in E; exact E);
      apply certify_body in E as [Hw Hr]; auto; (split; [exact Hw|split; [exact Ep|exact Hr]]).
  Qed.

  Lemma sign_mldsa_body b : all_bytes b -> prof cf = Mldsa87 ->
    match parse_sign_mldsa87 b with
    | Ok c => body_ok b (CmdSign c)
    | Err e => e = InvalidArgument
    | Crash _ => False
    end.
  Proof.
    intros Hb Ep. unfold parse_sign_mldsa87.
    destruct (split_fields [handle_size; 48; 4] b) as [[|h0 [|l0 [|f0 [|]]]]|] eqn:E0; try reflexivity.
    rewrite raw_bit. destruct (N.testbit (le_val f0) 0) eqn:Ef.
    - destruct (split_fields [handle_size; 48; 4; 4; mldsa87_raw_max] b)
        as [[|h [|l [|f [|sz [|raw [|]]]]]]|] eqn:E; try reflexivity.
      destruct (N.ltb_spec (N.of_nat mldsa87_raw_max) (le_val sz)) as [Hs|Hs]; [reflexivity|].
      assert (f = f0) as <-.
      { apply split_fields_inv in E as (El & rest & ->). cbn [map] in El. injection El as A1 A2 A3 A4 A5.
        replace (concat [h; l; f; sz; raw] ++ rest) with (concat [h; l; f] ++ (sz ++ raw ++ rest)) in E0
          by (cbn [concat]; rewrite ?app_nil_r, <- ?app_assoc; reflexivity).
        rewrite split_fields_at in E0 by (cbn [map]; congruence). congruence. }
      parsed E. clear E0.
      split; [cbn; repeat split; try assumption; try (apply word_u32; assumption)|].
      split; [cbn; repeat split; assumption|].
      exists rest. cbn [command_bytes sr_handle sr_label sr_flags sr_size sr_raw].
      rewrite !word_back by assumption. rewrite <- !app_assoc. reflexivity.
    - destruct (parse_sign 48 64 b) as [c|e|k] eqn:E; cbn [rbind];
        [|apply sign_err in E; exact E|apply sign_no_crash in E; exact E].
      assert (sg_flags c = le_val f0) as Hf.
      { unfold parse_sign in E.
        destruct (split_fields [handle_size; 48; 4; 64] b) as [[|h [|l [|f [|d [|]]]]]|] eqn:E1; try discriminate.
        apply Ok_inj in E as <-. cbn [sg_flags].
        apply split_fields_inv in E1 as (El & rest & ->). cbn [map] in El. injection El as A1 A2 A3 A4.
        replace (concat [h; l; f; d] ++ rest) with (concat [h; l; f] ++ (d ++ rest)) in E0
          by (cbn [concat]; rewrite ?app_nil_r, <- ?app_assoc; reflexivity).
        rewrite split_fields_at in E0 by (cbn [map]; congruence). congruence. }
      apply sign_body in E as [Hw Hr]; auto.
      split; [exact Hw|]. split; [split; [exact Ep|rewrite Hf; exact Ef]|exact Hr].
  Qed.

  Lemma sign_command_body b : all_bytes b ->
    match parse_sign_command cf b with
    | Ok c => body_ok b (CmdSign c)
    | Err e => e = InvalidArgument
    | Crash _ => False
    end.
  Proof.
    intros Hb. unfold parse_sign_command.
    destruct (prof cf) eqn:Ep.
    - destruct (parse_sign 32 32 b) as [c|e|k] eqn:E; cbn [rbind];
        [|apply sign_err in E; exact E|apply sign_no_crash in E; exact E].
      apply sign_body in E as [Hw Hr]; auto. split; [exact Hw|split; [exact Ep|exact Hr]].
    - destruct (parse_sign 48 48 b) as [c|e|k] eqn:E; cbn [rbind];
        [|apply sign_err in E; exact E|apply sign_no_crash in E; exact E].
      apply sign_body in E as [Hw Hr]; auto. split; [exact Hw|split; [exact Ep|exact Hr]].
    - apply sign_mldsa_body; assumption.
  Qed.

  (** Everything about one request. *)
  Lemma deserialize_cases b : all_bytes b ->
    match deserialize_command cf b with
    | Ok c => exists p body,
        b = le_bytes 4 command_magic ++ le_bytes 4 (command_id c) ++ le_bytes 4 p ++ body /\
        u32 p /\ (c = CmdGetProfile \/ p = profile_id (prof cf)) /\ body_ok body c
    | Err e =>
        (e = InvalidCommand /\ ~ exists id, known_id id /\ good_header cf b id) \/
        (e = InvalidArgument /\ exists id, known_id id /\ id <> 1%N /\ good_header cf b id)
    | Crash _ => False
    end.
  Proof.
    intros Hb. unfold deserialize_command.
    destruct (parse_command_hdr cf b) as [id|e|k] eqn:E; cbn [rbind].
    - pose proof E as E'. apply parse_hdr_inv in E' as (p & body & -> & Hi & Hp & Hor); [|exact Hb].
      rewrite skip_hdr.
      assert (Hbody : all_bytes body) by (rewrite !all_bytes_app in Hb; apply Hb).
      assert (G : good_header cf (le_bytes 4 command_magic ++ le_bytes 4 id ++ le_bytes 4 p ++ body) id).
      { exists p, body. split; [reflexivity|]. split; [exact Hi|]. split; [exact Hp|].
        intros Hn. destruct Hor as [->| ->]; [congruence|]. unfold own_profile. destruct (prof cf); reflexivity. }
      assert (Bad : known_id id -> id <> 1%N ->
                (InvalidArgument = InvalidCommand /\ ~ (exists id0, known_id id0 /\
                   good_header cf (le_bytes 4 command_magic ++ le_bytes 4 id ++ le_bytes 4 p ++ body) id0)) \/
                (InvalidArgument = InvalidArgument /\ exists id0, known_id id0 /\ id0 <> 1%N /\
                   good_header cf (le_bytes 4 command_magic ++ le_bytes 4 id ++ le_bytes 4 p ++ body) id0)).
      { intros K K1. right. split; [reflexivity|]. exists id. auto. }
      destruct (N.eq_dec id 1) as [->|H1].
      { exists p, body. split; [reflexivity|]. split; [exact Hp|]. split; [left; reflexivity|].
        split; [exact I|]. split; [exact I|]. exists body. reflexivity. }
      destruct Hor as [Hor|Hor]; [congruence|].
      destruct (N.eq_dec id 7) as [->|H7].
      { destruct (split_fields [4] body) as [[|f [|]]|] eqn:Es;
          try (apply Bad; [cbv; tauto|lia]).
        exists p, body. split; [reflexivity|]. split; [exact Hp|]. split; [right; exact Hor|].
        clear E G Bad. parsed Es. rebuilt rest. }
      destruct (N.eq_dec id 8) as [->|H8].
      { destruct (split_fields [handle_size; tci_size cf; 4; 4; 4; 4] body)
          as [[|x1 [|x2 [|x3 [|x4 [|x5 [|x6 [|]]]]]]]|] eqn:Es;
          try (apply Bad; [cbv; tauto|lia]).
        exists p, body. split; [reflexivity|]. split; [exact Hp|]. split; [right; exact Hor|].
        clear E G Bad. parsed Es. rebuilt rest. }
      destruct (N.eq_dec id 9) as [->|H9].
      { pose proof (certify_command_body body Hbody) as Hc. cbn [N.to_nat].
        destruct (parse_certify_command cf body) as [c|e|k]; cbn [rbind]; [|subst e; apply Bad; [cbv; tauto|lia]|exact Hc].
        exists p, body. split; [destruct c; reflexivity|]. auto. }
      destruct (N.eq_dec id 10) as [->|H10].
      { pose proof (sign_command_body body Hbody) as Hc. cbn [N.to_nat].
        destruct (parse_sign_command cf body) as [c|e|k]; cbn [rbind]; [|subst e; apply Bad; [cbv; tauto|lia]|exact Hc].
        exists p, body. split; [destruct c; reflexivity|]. auto. }
      destruct (N.eq_dec id 14) as [->|H14].
      { destruct (split_fields [handle_size; 4] body) as [[|h [|f [|]]]|] eqn:Es;
          try (apply Bad; [cbv; tauto|lia]).
        exists p, body. split; [reflexivity|]. split; [exact Hp|]. split; [right; exact Hor|].
        clear E G Bad. parsed Es. rebuilt rest. }
      destruct (N.eq_dec id 15) as [->|H15].
      { destruct (split_fields [handle_size] body) as [[|h [|]]|] eqn:Es;
          try (apply Bad; [cbv; tauto|lia]).
        exists p, body. split; [reflexivity|]. split; [exact Hp|]. split; [right; exact Hor|].
        clear E G Bad. parsed Es. split; [split; assumption|split; [exact I|exists rest; reflexivity]]. }
      destruct (N.eq_dec id 16) as [->|H16].
      { destruct (split_fields [4; 4] body) as [[|h [|f [|]]]|] eqn:Es;
          try (apply Bad; [cbv; tauto|lia]).
        exists p, body. split; [reflexivity|]. split; [exact Hp|]. split; [right; exact Hor|].
        clear E G Bad. parsed Es. rebuilt rest. }
      destruct (N.eq_dec id 2147483648) as [->|Hv].
      { destruct (split_fields [handle_size; tci_size cf; 4; 4; 4] body)
          as [[|x1 [|x2 [|x3 [|x4 [|x5 [|]]]]]]|] eqn:Es;
          try (apply Bad; [cbv; tauto|lia]).
        exists p, body. split; [reflexivity|]. split; [exact Hp|]. split; [right; exact Hor|].
        clear E G Bad. parsed Es. rebuilt rest. }
      assert (Hd : forall (A : Type) (a1 a7 a8 a9 a10 a14 a15 a16 av d : A),
         match id with 1 => a1 | 7 => a7 | 8 => a8 | 9 => a9 | 10 => a10 | 14 => a14 | 15 => a15
                     | 16 => a16 | 2147483648 => av | _ => d end%N = d).
      { intros. clear - H1 H7 H8 H9 H10 H14 H15 H16 Hv.
        destruct id as [|q]; [reflexivity|].
        repeat (destruct q as [q|q|]; try reflexivity; try congruence). }
      rewrite Hd. left. split; [reflexivity|]. intros (id' & Hk & p' & r' & Heq & Hi' & _).
      assert (id' = id) as ->.
      { change [67; 69; 80; 68]%N with (le_bytes 4 command_magic) in Heq.
        apply app_inv_head in Heq.
        assert (firstn 4 (le_bytes 4 id ++ le_bytes 4 p ++ body) = firstn 4 (le_bytes 4 id' ++ le_bytes 4 p' ++ r'))
          as X by (rewrite Heq; reflexivity).
        change (le_bytes 4 id = le_bytes 4 id') in X. symmetry. revert X. apply le_bytes_inj; assumption. }
      cbn in Hk. intuition congruence.
    - left. assert (e = InvalidCommand) as ->.
      { unfold parse_command_hdr in E. destruct (split_fields [4; 4; 4] b) as [[|? [|? [|? [|]]]]|]; try congruence.
        repeat match type of E with context[if ?x then _ else _] => destruct x end; congruence. }
      split; [reflexivity|]. intros (id & Hk & p & r & -> & Hi & Hp & Hor).
      change [67; 69; 80; 68]%N with (le_bytes 4 command_magic) in E.
      rewrite parse_hdr_ok in E; [discriminate|exact Hi|exact Hp|].
      destruct (N.eq_dec id 1) as [->|Hn]; [left; reflexivity|right; rewrite (Hor Hn); unfold own_profile; destruct (prof cf); reflexivity].
    - unfold parse_command_hdr in E. destruct (split_fields [4; 4; 4] b) as [[|? [|? [|? [|]]]]|]; try congruence.
      repeat match type of E with context[if ?x then _ else _] => destruct x end; congruence.
  Qed.

  Lemma own_profile_eq : own_profile cf = profile_id (prof cf).
  Proof. unfold own_profile. destruct (prof cf); reflexivity. Qed.
  Lemma request_id_eq c : request_id c = command_id c.
  Proof. destruct c; reflexivity. Qed.

  Lemma serialize_request c : serialize_command cf c = request c (own_profile cf).
  Proof.
    unfold serialize_command, command_hdr, request. rewrite own_profile_eq, command_bytes_fields.
    change (request_id c) with (command_id c). change [67; 69; 80; 68]%N with (le_bytes 4 command_magic).
    rewrite <- !app_assoc. reflexivity.
  Qed.

  Lemma deserialize_request c b : all_bytes b -> request_of cf c b -> deserialize_command cf b = Ok c.
  Proof.
    intros Hb (W & F & p & rest & -> & Hp & [-> | ->]).
    - unfold request in *. unfold deserialize_command.
      change [67; 69; 80; 68]%N with (le_bytes 4 command_magic). rewrite <- !app_assoc.
      rewrite parse_hdr_ok; [reflexivity|reflexivity|exact Hp|left; reflexivity].
    - rewrite <- serialize_request. apply deserialize_serialize; assumption.
  Qed.

  Lemma deserialize_ok b c : all_bytes b -> deserialize_command cf b = Ok c -> request_of cf c b.
  Proof.
    intros Hb E. pose proof (deserialize_cases b Hb) as H. rewrite E in H.
    destruct H as (p & body & -> & Hp & Hc & W & F & rest & ->).
    split; [exact W|]. split; [exact F|]. exists p, rest. split; [|split; [exact Hp|]].
    - unfold request. change (request_id c) with (command_id c). rewrite command_bytes_fields.
      change [67; 69; 80; 68]%N with (le_bytes 4 command_magic). rewrite <- !app_assoc. reflexivity.
    - rewrite own_profile_eq. exact Hc.
  Qed.

End Cmd.

(** ** Responses *)
Section Resp.
  Variable cf : config.

  Lemma profile_of_id p :
    (match p with P256Sha256 => feat_p256 cf | P384Sha384 => feat_p384 cf | Mldsa87 => feat_mldsa cf end = true) ->
    profile_of cf (profile_id p) = Some p.
  Proof.
    intros H. unfold profile_of. destruct p; cbn [profile_id] in *; rewrite ?N.eqb_refl; cbn [andb];
      change (N.eqb 4 3) with false; change (N.eqb 5 3) with false; change (N.eqb 5 4) with false;
      cbn [andb]; rewrite H; reflexivity.
  Qed.

  Lemma profile_of_inv v p : profile_of cf v = Some p -> v = profile_id p /\
    match p with P256Sha256 => feat_p256 cf | P384Sha384 => feat_p384 cf | Mldsa87 => feat_mldsa cf end = true.
  Proof.
    unfold profile_of.
    destruct (N.eqb_spec v 3) as [E3|E3], (N.eqb_spec v 4) as [E4|E4], (N.eqb_spec v 5) as [E5|E5],
      (feat_p256 cf) eqn:F1, (feat_p384 cf) eqn:F2, (feat_mldsa cf) eqn:F3; cbn [andb];
      first [discriminate | intros [= <-]; split; [assumption|reflexivity] | lia].
  Qed.

  Lemma pid_u32 p : u32 (profile_id p).
  Proof. destruct p; reflexivity. Qed.

  Lemma pk_size_eq p : pk_size p = match p with P256Sha256 => 64 | P384Sha384 => 96 | Mldsa87 => N.to_nat 2592 end.
  Proof. destruct p; reflexivity. Qed.
  Lemma sig_size_eq p : sig_size p = match p with P256Sha256 => 64 | P384Sha384 => 96 | Mldsa87 => N.to_nat 4628 end.
  Proof.
    destruct p; reflexivity.
  Qed.

  Lemma answers_layout cmd r : answers cf cmd r ->
    map (@length N) (response_fields r) = response_layout cf cmd.
  Proof.
    intros [_ A]. unfold response_layout.
    destruct cmd, r; try contradiction; cbn [response_fields hdr_fields map app];
      rewrite ?map_app; cbn [map]; rewrite !length_le_bytes; try reflexivity;
      unfold df_export_cdi; rewrite ?contains_bit;
      repeat match goal with
             | H : _ /\ _ |- _ => destruct H
             | H : byte_string _ _ |- _ => destruct H
             | H : N.testbit _ 23 = _ |- _ => rewrite H
             end; subst; rewrite ?pk_size_eq, ?sig_size_eq; cbn [app];
      unfold handle_size, exported_cdi_size, max_chunk_size; repeat (f_equal; try assumption).
  Qed.

  Lemma answers_build cmd r : answers cf cmd r ->
    build_response cf cmd (response_fields r) = Some r.
  Proof.
    intros [(Hm & Hs & Hp) A].
    assert (E : profile_of cf (le_val (le_bytes 4 (profile_id (rh_profile (response_hdr_of r)))))
                = Some (rh_profile (response_hdr_of r))).
    { rewrite le4 by apply pid_u32. apply profile_of_id. exact Hp. }
    destruct cmd, r; try contradiction;
      cbn [response_fields hdr_fields app build_response response_hdr_of] in *;
      rewrite E, !le4 by (assumption || apply A);
      rewrite ?le2 by apply A;
      repeat match goal with H : _ /\ _ |- _ => destruct H end; subst;
      match goal with h : response_hdr |- _ => destruct h end; reflexivity.
  Qed.

  Lemma read_prefix_bytes cmd r rest : answers cf cmd r ->
    read_prefix cf cmd (response_bytes r ++ rest) = Some r.
  Proof.
    intros A. unfold read_prefix, response_bytes.
    rewrite split_fields_at by (apply answers_layout; exact A). apply answers_build. exact A.
  Qed.

  Lemma response_length cmd r : answers cf cmd r -> length (response_bytes r) = response_size cf cmd.
  Proof.
    intros A. unfold response_bytes, response_size. rewrite concat_length, (answers_layout _ _ A). reflexivity.
  Qed.

  Lemma size_wire cmd : response_size cf cmd = N.to_nat (wire_size cf cmd).
  Proof.
    unfold response_size, response_layout, wire_size, list_sum, handle_size, exported_cdi_size, max_chunk_size.
    destruct cmd as [|f|d|c|c|h f|h|o z|u]; try reflexivity.
    - unfold df_export_cdi. rewrite contains_bit. destruct (N.testbit (dc_flags d) 23); [|reflexivity].
      cbn [app fold_right]. lia.
    - rewrite pk_size_eq. destruct (certify_profile c); cbn [app fold_right]; lia.
    - rewrite sig_size_eq. destruct (sign_profile c); reflexivity.
  Qed.

  (** Anything read is a legal answer and re-encodes to the bytes read. *)
  Lemma read_prefix_inv cmd b r : all_bytes b -> read_prefix cf cmd b = Some r ->
    answers cf cmd r /\ exists rest, b = response_bytes r ++ rest.
  Proof.
    intros Hb H. unfold read_prefix in H.
    destruct (split_fields (response_layout cf cmd) b) as [fs|] eqn:E; [|discriminate].
    apply split_fields_inv in E as (El & rest & ->).
    rewrite all_bytes_app, all_bytes_concat in Hb. destruct Hb as [Hb _].
    enough (answers cf cmd r /\ response_fields r = fs) as [A B].
    { split; [exact A|]. exists rest. unfold response_bytes. rewrite B. reflexivity. }
    unfold build_response in H.
    destruct fs as [|m [|st [|p fs]]]; try discriminate.
    destruct (profile_of cf (le_val p)) as [pr|] eqn:Ep; [|discriminate].
    apply profile_of_inv in Ep as [Ep Hp].
    inversion Hb as [|? ? Bm Hb1]; subst. inversion Hb1 as [|? ? Bs Hb2]; subst.
    inversion Hb2 as [|? ? Bp Hb3]; subst. clear Hb Hb1 Hb2.
    unfold response_layout in El. cbn [app map] in El.
    injection El as Lm Ls Lp El.
    assert (Hh : hdr_wf cf {| rh_magic := le_val m; rh_status := le_val st; rh_profile := pr |}).
    { repeat split; cbn; auto using word_u32. }
    assert (Hf : hdr_fields {| rh_magic := le_val m; rh_status := le_val st; rh_profile := pr |} = [m; st; p]).
    { unfold hdr_fields. cbn [rh_magic rh_status rh_profile]. rewrite <- Ep, !word_back by assumption. reflexivity. }
    destruct cmd as [|f|d|c|c|h f|h|o z|u]; unfold df_export_cdi in El; rewrite ?contains_bit in El;
      try destruct (N.testbit (dc_flags d) 23) eqn:T23;
      repeat match type of H with match ?l with nil => _ | cons _ _ => _ end = _ =>
               destruct l; cbn [map] in El; try discriminate end;
      repeat match goal with H : Forall _ (_ :: _) |- _ => inversion H; clear H; subst end;
      injection H as <-; cbn [map] in El; try injection El as;
      (split; [split; [exact Hh|]|cbn [response_fields]; rewrite Hf; cbn [app]; rewrite ?word_back, ?half_back by assumption; reflexivity]);
      rewrite ?pk_size_eq, ?sig_size_eq in *;
      cbn [app]; repeat split; try assumption; try reflexivity; try (apply word_u32; assumption);
      match goal with H : length ?l = 2 |- (le_val ?l < _)%N =>
        match goal with B : all_bytes l |- _ => pose proof (le_val_bound l B) as X; rewrite H in X; exact X end end.
  Qed.

  Lemma size_fits cmd : response_size cf cmd <= response_union_size cf.
  Proof.
    unfold response_size, response_union_size, response_layout, list_sum, handle_size, exported_cdi_size.
    destruct cmd as [|f|d|c|c|h f|h|o z|u]; try (cbn [app fold_right]; lia).
    - destruct (df_export_cdi (dc_flags d)); cbn [app fold_right].
      + unfold mldsa87_pk_size, max_chunk_size.
        change (N.to_nat 2592) with (Pos.to_nat 2592). lia.
      + lia.
    - rewrite pk_size_eq. cbn [app fold_right]. unfold mldsa87_pk_size.
      change (N.to_nat 2592) with (Pos.to_nat 2592).
      destruct (certify_profile c); lia.
    - cbn [app fold_right]. unfold sig_size, mldsa87_sig_size, max_chunk_size, mldsa87_pk_size.
      change (N.to_nat 2592) with (Pos.to_nat 2592). change (N.to_nat 4627) with (Pos.to_nat 4627).
      destruct (sign_profile c); lia.
  Qed.

  Lemma read_prefix_firstn cmd b n : response_size cf cmd <= n ->
    read_prefix cf cmd (firstn n b) = read_prefix cf cmd b.
  Proof.
    unfold read_prefix, response_size. intros Hn. f_equal.
    enough (split_fields (response_layout cf cmd) (firstn n b) = split_fields (response_layout cf cmd) b) as ->
      by reflexivity.
    revert b n Hn. generalize (response_layout cf cmd). induction l as [|k l IH]; intros b n Hn; [reflexivity|].
    cbn [split_fields]. change (list_sum (k :: l)) with (k + list_sum l) in Hn.
    rewrite firstn_length.
    destruct (Nat.leb_spec k (length b)) as [Hk|Hk].
    - replace (Nat.leb k (Nat.min n (length b))) with true by (symmetry; apply Nat.leb_le; lia).
      rewrite firstn_firstn, Nat.min_l by lia. rewrite skipn_firstn_comm, IH by lia. reflexivity.
    - replace (Nat.leb k (Nat.min n (length b))) with false by (symmetry; apply Nat.leb_gt; lia). reflexivity.
  Qed.

  (** Reading what arrived over the wire depends only on the bytes padded with
      zeroes. *)
  Lemma try_read_padded cmd b : 
    try_read_from_bytes cf cmd b =
    ok_or (read_prefix cf cmd (b ++ repeat 0%N (response_size cf cmd - length b))) InvalidArgument.
  Proof.
    unfold try_read_from_bytes. f_equal.
    pose proof (size_fits cmd) as Hs. set (U := response_union_size cf) in *. set (S := response_size cf cmd) in *.
    rewrite <- (read_prefix_firstn cmd (firstn _ b ++ _) S) by reflexivity.
    rewrite <- (read_prefix_firstn cmd (b ++ _) S) by reflexivity.
    f_equal. apply list_ext. intros i.
    destruct (Nat.lt_ge_cases i S) as [Hi|Hi];
      [|rewrite !(proj2 (nth_error_None _ _)); [reflexivity|rewrite firstn_length; lia|rewrite firstn_length; lia]].
    rewrite !nth_firstn by exact Hi.
    destruct (Nat.lt_ge_cases i (length b)) as [Hb|Hb].
    - rewrite !nth_error_app1 by (rewrite ?firstn_length; lia).
      rewrite nth_firstn by lia. reflexivity.
    - rewrite !nth_error_app2 by (rewrite ?firstn_length; lia). rewrite firstn_length.
      rewrite !nth_repeat_some by lia. reflexivity.
  Qed.

  Lemma try_read_full cmd r rest : answers cf cmd r ->
    try_read_from_bytes cf cmd (response_bytes r ++ rest) = Ok r.
  Proof.
    intros A. rewrite try_read_padded, <- app_assoc, read_prefix_bytes by exact A. reflexivity.
  Qed.

  (** Only the certificate in use is transmitted; parsing gives the response
      back with the unused certificate bytes zero. *)
  Lemma cert_split cmd r n cert : answers cf cmd r -> cert_area r = Some (n, cert) ->
    exists pre t, response_bytes r = pre ++ cert /\
      t = firstn (N.to_nat n) cert ++ repeat 0%N (length cert - N.to_nat n) /\
      response_bytes (trim r) = pre ++ t /\ length cert = N.to_nat (max_cert_size cf) /\ all_bytes cert.
  Proof.
    intros [_ A] E. destruct r; try discriminate; cbn [cert_area] in E; injection E as -> ->.
    - destruct cmd; try (exfalso; exact A). destruct A as (_ & _ & _ & _ & _ & Hc & Hb).
      exists (concat (hdr_fields h ++ [handle; parent; cdi; le_bytes 4 n])). exists (firstn (N.to_nat n) cert ++ repeat 0%N (length cert - N.to_nat n)).
      unfold response_bytes. cbn [response_fields trim]. rewrite !concat_app. cbn [concat].
      rewrite ?app_nil_r, <- ?app_assoc. split; [reflexivity|]. split; [reflexivity|].
      split; [rewrite <- ?app_assoc; reflexivity|]. split; [exact Hc|exact Hb].
    - destruct cmd; try (exfalso; exact A). destruct A as (_ & _ & _ & _ & Hc & Hb).
      exists (concat (hdr_fields h ++ [handle; pk; le_bytes 4 n])). exists (firstn (N.to_nat n) cert ++ repeat 0%N (length cert - N.to_nat n)).
      unfold response_bytes. cbn [response_fields trim]. rewrite !concat_app. cbn [concat].
      rewrite ?app_nil_r, <- ?app_assoc. split; [reflexivity|]. split; [reflexivity|].
      split; [rewrite <- ?app_assoc; reflexivity|]. split; [exact Hc|exact Hb].
  Qed.

  Lemma trim_answers cmd r n cert : answers cf cmd r -> cert_area r = Some (n, cert) ->
    (n <= max_cert_size cf)%N -> answers cf cmd (trim r).
  Proof.
    intros [Hh A] E Hn. destruct r; try discriminate; cbn [cert_area] in E; injection E as -> ->;
      (split; [exact Hh|]); destruct cmd; try (exfalso; exact A); cbn [trim] in *.
    - destruct A as (A1 & A2 & A3 & A4 & A5 & Hc & Hb). repeat (split; [assumption|]).
      split; [rewrite app_length, firstn_length, repeat_length; lia|].
      apply all_bytes_app. split; [apply all_bytes_firstn; exact Hb|apply all_bytes_zero].
    - destruct A as (A1 & A2 & A3 & A4 & Hc & Hb). repeat (split; [assumption|]).
      split; [rewrite app_length, firstn_length, repeat_length; lia|].
      apply all_bytes_app. split; [apply all_bytes_firstn; exact Hb|apply all_bytes_zero].
  Qed.

  Lemma partial_ok cmd r n cert : answers cf cmd r -> cert_area r = Some (n, cert) ->
    (n <= max_cert_size cf)%N ->
    exists b, response_bytes_partial cf r = Ok b /\
      (exists unused, response_bytes r = b ++ unused /\ (N.of_nat (length unused) + n = max_cert_size cf)%N) /\
      forall k, try_read_from_bytes cf cmd (b ++ repeat 0%N k) = Ok (trim r).
  Proof.
    intros A E Hn. destruct (cert_split _ _ _ _ A E) as (pre & t & E1 & Et & E2 & Hc & _).
    exists (pre ++ firstn (N.to_nat n) cert).
    assert (Hp : response_bytes_partial cf r = Ok (pre ++ firstn (N.to_nat n) cert)).
    { assert (Q : forall e, prefix_or (response_bytes r) (N.of_nat (length (response_bytes r)) - max_cert_size cf + n) e
                            = Ok (pre ++ firstn (N.to_nat n) cert)).
      { intros e. unfold prefix_or. rewrite E1, app_length, Hc.
        replace (N.leb _ _) with true by (symmetry; apply N.leb_le; lia).
        f_equal. replace (N.to_nat _) with (length pre + N.to_nat n) by lia.
        rewrite firstn_app_2. reflexivity. }
      destruct r; try discriminate; cbn [cert_area] in E; injection E as -> ->;
        cbn [response_bytes_partial]; apply Q. }
    split; [exact Hp|]. split.
    { exists (skipn (N.to_nat n) cert). split.
      - rewrite E1, <- app_assoc, firstn_skipn. reflexivity.
      - rewrite skipn_length, Hc. lia. }
    intros k. pose proof (trim_answers _ _ _ _ A E Hn) as A'.
    pose proof (response_length _ _ A') as L'. rewrite E2, app_length in L'.
    rewrite try_read_padded, <- !app_assoc, <- repeat_app, !app_length, repeat_length.
    set (z := k + _).
    assert (Hz : length cert - N.to_nat n <= z).
    { subst z. rewrite <- L', Et, app_length, !firstn_length, repeat_length. lia. }
    replace (pre ++ firstn (N.to_nat n) cert ++ repeat 0%N z)
      with (response_bytes (trim r) ++ repeat 0%N (z - (length cert - N.to_nat n))).
    2:{ rewrite E2, Et, <- !app_assoc, <- repeat_app. do 3 f_equal. lia. }
    rewrite read_prefix_bytes by exact A'. reflexivity.
  Qed.

  Lemma partial_err cmd r n cert : answers cf cmd r -> cert_area r = Some (n, cert) ->
    (max_cert_size cf < n)%N -> exists e, response_bytes_partial cf r = Err (InternalError e).
  Proof.
    intros A E Hn. destruct (cert_split _ _ _ _ A E) as (pre & t & E1 & Et & E2 & Hc & _).
    assert (Q : forall e, prefix_or (response_bytes r) (N.of_nat (length (response_bytes r)) - max_cert_size cf + n) e
                          = Err (InternalError e)).
    { intros e. unfold prefix_or. rewrite E1, app_length, Hc.
      replace (N.leb _ _) with false by (symmetry; apply N.leb_gt; lia). reflexivity. }
    destruct r; try discriminate; cbn [cert_area] in E; injection E as -> ->;
      cbn [response_bytes_partial]; eexists; apply Q.
  Qed.

  Lemma partial_plain r : cert_area r = None -> response_bytes_partial cf r = Ok (response_bytes r).
  Proof. destruct r; try discriminate; reflexivity. Qed.
End Resp.

(** ** Response buffers *)
Lemma nth_skipn {A} o i (l : list A) : nth_error (skipn o l) i = nth_error l (o + i).
Proof.
  revert l. induction o as [|o IH]; intros l; [reflexivity|].
  destruct l as [|x l]; cbn [skipn nth_error Nat.add]; [destruct i; reflexivity|apply IH].
Qed.
Lemma skip_skip {A} a b (l : list A) : skipn a (skipn b l) = skipn (b + a) l.
Proof.
  revert l. induction b as [|b IH]; intros l; [reflexivity|].
  destruct l as [|x l]; cbn [skipn Nat.add]; [destruct a; reflexivity|apply IH].
Qed.

Section Buf.
  Variable umax : N.

  Lemma capacity_eq r : capacity r = (N.of_nat (length (backing r)) - origin r)%N.
  Proof. induction r as [b|base r IH]; cbn [capacity backing origin]; lia. Qed.

  Lemma write_at_spec r o bs : (N.of_nat (length (backing r)) <= umax)%N ->
    write_at umax r o bs =
      if N.leb (origin r + o + N.of_nat (length bs)) (N.of_nat (length (backing r)))
      then (true, rebacked r (overwrite (backing r) (N.to_nat (origin r + o)) bs))
      else (false, r).
  Proof.
    revert o. induction r as [b|base r IH]; intros o Hu; cbn [write_at backing origin rebacked] in *;
      unfold checked_add.
    - destruct (N.leb_spec (o + N.of_nat (length bs)) umax) as [H1|H1].
      + destruct (N.leb_spec (o + N.of_nat (length bs)) (N.of_nat (length b))) as [H2|H2];
          destruct (N.leb_spec (0 + o + N.of_nat (length bs)) (N.of_nat (length b))) as [H3|H3];
          try (exfalso; lia); [|reflexivity].
        unfold overwrite. rewrite N2Nat.inj_add, Nat2N.id. reflexivity.
      + destruct (N.leb_spec (0 + o + N.of_nat (length bs)) (N.of_nat (length b))) as [H3|H3];
          [exfalso; lia|reflexivity].
    - destruct (N.leb_spec (base + o) umax) as [H1|H1].
      + rewrite IH by exact Hu. rewrite !N.add_assoc, (N.add_comm (origin r) base).
        destruct (N.leb_spec (base + origin r + o + N.of_nat (length bs)) (N.of_nat (length (backing r)))); reflexivity.
      + destruct (N.leb_spec (base + origin r + o + N.of_nat (length bs)) (N.of_nat (length (backing r))));
          [exfalso; lia|reflexivity].
  Qed.

  Lemma backing_rebacked r b : backing (rebacked r b) = b.
  Proof. induction r; cbn; auto. Qed.
  Lemma origin_rebacked r b : origin (rebacked r b) = origin r.
  Proof. induction r; cbn; congruence. Qed.
  Lemma rebacked_rebacked r a b : rebacked (rebacked r a) b = rebacked r b.
  Proof. induction r; cbn; congruence. Qed.
  Lemma rebacked_same r : rebacked r (backing r) = r.
  Proof. induction r; cbn; congruence. Qed.

  Lemma read_range_spec r a z : (N.of_nat (length (backing r)) <= umax)%N ->
    read_range umax r a z =
      if N.leb a z && N.leb (origin r + z) (N.of_nat (length (backing r)))
      then Some (firstn (N.to_nat (z - a)) (skipn (N.to_nat (origin r + a)) (backing r)))
      else None.
  Proof.
    revert a z. induction r as [b|base r IH]; intros a z Hu; cbn [read_range backing origin] in *; unfold checked_add.
    - rewrite !N.add_0_l. reflexivity.
    - destruct (N.leb_spec (base + a) umax) as [H1|H1], (N.leb_spec (base + z) umax) as [H2|H2];
        try rewrite IH by exact Hu;
        destruct (N.leb_spec a z) as [H3|H3];
        destruct (N.leb_spec (base + origin r + z) (N.of_nat (length (backing r)))) as [H4|H4]; cbn [andb];
        try (exfalso; lia); try reflexivity;
        try (destruct (N.leb_spec (base + a) (base + z)) as [H5|H5];
             destruct (N.leb_spec (origin r + (base + z)) (N.of_nat (length (backing r)))) as [H6|H6]; cbn [andb];
             try (exfalso; lia); try reflexivity).
      replace (base + z - (base + a))%N with (z - a)%N by lia.
      replace (origin r + (base + a))%N with (base + origin r + a)%N by lia. reflexivity.
  Qed.

  Lemma clear_from_spec n i r : (N.of_nat (length (backing r)) <= umax)%N ->
    (origin r + i + N.of_nat n <= N.of_nat (length (backing r)))%N ->
    clear_from umax n i r =
      (true, rebacked r (overwrite (backing r) (N.to_nat (origin r + i)) (repeat 0%N n))).
  Proof.
    revert i r. induction n as [|n IH]; intros i r Hu Hn; cbn [clear_from].
    - unfold overwrite. cbn [repeat length app]. rewrite Nat.add_0_r, firstn_skipn, rebacked_same. reflexivity.
    - rewrite write_at_spec by exact Hu. cbn [length].
      replace (N.leb _ _) with true by (symmetry; apply N.leb_le; lia).
      set (b1 := overwrite (backing r) (N.to_nat (origin r + i)) [0%N]).
      assert (L1 : length b1 = length (backing r)).
      { subst b1. unfold overwrite. rewrite !app_length, firstn_length, skipn_length. cbn [length]. lia. }
      rewrite IH by (rewrite backing_rebacked, ?origin_rebacked, L1; lia).
      rewrite rebacked_rebacked, backing_rebacked, origin_rebacked. f_equal. f_equal.
      subst b1. set (o := N.to_nat (origin r + i)) in *.
      replace (N.to_nat (origin r + (i + 1))) with (S o) by lia.
      unfold overwrite. cbn [length]. rewrite !repeat_length.
      assert (Ho : o + S n <= length (backing r)) by lia.
      assert (Lf : length (firstn o (backing r)) = o) by (rewrite firstn_length; lia).
      replace (firstn (S o) (firstn o (backing r) ++ [0%N] ++ skipn (o + 1) (backing r)))
        with (firstn o (backing r) ++ [0%N]).
      2:{ rewrite firstn_app, Lf. rewrite (firstn_all2 (n := S o)) by lia.
          replace (S o - o) with 1 by lia. reflexivity. }
      replace (skipn (S o + n) (firstn o (backing r) ++ [0%N] ++ skipn (o + 1) (backing r)))
        with (skipn (o + S n) (backing r)).
      2:{ rewrite skipn_app, Lf. rewrite (skipn_all2 (firstn o (backing r))) by lia. cbn [app].
          replace (S o + n - o) with (S n) by lia. cbn [skipn]. rewrite skip_skip. f_equal. lia. }
      cbn [repeat app]. rewrite <- !app_assoc. reflexivity.
  Qed.

  Lemma clear_spec r : (N.of_nat (length (backing r)) <= umax)%N ->
    clear umax r = (true, rebacked r (firstn (N.to_nat (origin r)) (backing r) ++
                      repeat 0%N (length (backing r) - N.to_nat (origin r)))).
  Proof.
    intros Hu. destruct r as [b|base r]; [cbn; rewrite Nat.sub_0_r; reflexivity|].
    unfold clear. set (v := View base r) in *.
    destruct (N.leb_spec (origin v) (N.of_nat (length (backing v)))) as [H|H].
    - rewrite clear_from_spec by (rewrite ?capacity_eq; lia).
      rewrite capacity_eq. f_equal. f_equal. unfold overwrite. rewrite repeat_length.
      rewrite N.add_0_r. f_equal.
      replace (N.to_nat (N.of_nat (length (backing v)) - origin v)) with (length (backing v) - N.to_nat (origin v)) by lia.
      rewrite skipn_all2 by lia. rewrite app_nil_r. reflexivity.
    - rewrite capacity_eq. replace (N.to_nat _) with 0 by lia. cbn [clear_from].
      rewrite firstn_all2 by lia.
      replace (length (backing v) - N.to_nat (origin v)) with 0 by lia. cbn [repeat].
      rewrite app_nil_r, rebacked_same. reflexivity.
  Qed.
End Buf.

(** ** Status codes *)
Lemma code_zero e : get_error_code e = 0%N <-> e = NoError.
Proof.
  split; [|intros ->; reflexivity].
  destruct e as [|c| | | | | | | | | | | | | | | | | | | | | |x|x|x]; try discriminate; try reflexivity;
    destruct x; discriminate.
Qed.

(** One error for each status code. *)
Definition canon_platform (p : platform_error) : platform_error :=
  match p with
  | PEIssuerName _ => PEIssuerName 0 | PEPrint _ => PEPrint 0 | PESerialNumber _ => PESerialNumber 0
  | PESubjectKeyIdentifier _ => PESubjectKeyIdentifier 0 | PECertValidity _ => PECertValidity 0
  | PEIssuerKeyIdentifier _ => PEIssuerKeyIdentifier 0
  | PESubjectAlternativeName _ => PESubjectAlternativeName 0
  | _ => p
  end%N.
Definition canon_crypto (c : crypto_error) : crypto_error :=
  match c with
  | CEAbstractionLayer _ => CEAbstractionLayer 0 | CECryptoLib _ => CECryptoLib 0 | CEHash _ => CEHash 0
  | _ => c
  end%N.
Definition canon_error (e : dpe_error) : dpe_error :=
  match e with
  | InternalError _ => InternalError EmptyTciNodes
  | PlatformErr p => PlatformErr (canon_platform p)
  | CryptoErr c => CryptoErr (canon_crypto c)
  | _ => e
  end.
Definition canon_list : list dpe_error :=
  [NoError; InternalError EmptyTciNodes; InvalidCommand; InvalidArgument; SessionExhausted;
   InitializationSeedLocked; OutOfMemory; CancelledCommand; InvalidHandle; InvalidLocality; HandleDefined;
   ArgumentNotSupported; AlreadyInitialized; InvalidParentLocality; X509CsrUnset; X509InvalidState;
   X509SkipsExhausted; X509InvalidWidth; X509AlgorithmMismatch; MaxTcis; InvalidMutRefBuf;
   InvalidResponseBuf; UninitializedResponseHeader] ++
  map PlatformErr [PECertificateChain; PENotImplemented; PEIssuerName 0; PEPrint 0; PESerialNumber 0;
    PESubjectKeyIdentifier 0; PECertValidity 0; PEIssuerKeyIdentifier 0; PESubjectAlternativeName 0;
    PEMissingUeid; PEInvalidUeid] ++
  map CryptoErr [CEAbstractionLayer 0; CECryptoLib 0; CESize; CENotImplemented; CEHash 0;
    CEInvalidExportedCdiHandle; CEExportedCdiHandleDuplicateCdi; CEExportedCdiHandleLimitExceeded;
    CEMismatchedAlgorithm] ++
  map ValidationErr [MultipleNormalConnectedComponents; CyclesInTree; InactiveContextInvalidParent;
    InactiveContextWithChildren; BadContextState; BadContextType; InactiveContextWithMeasurement;
    MixedContextLocality; MultipleDefaultContexts; SimulationNotSupported; ParentDoesNotExist;
    InternalDiceNotSupported; InternalInfoNotSupported; ChildDoesNotExist; InactiveContextWithFlagSet;
    LocalityMismatch; DanglingRetiredContext; MixedContextTypeConnectedComponents; ChildWithMultipleParents;
    ParentChildLinksCorrupted; AllowCaNotSupported; AllowX509NotSupported; InactiveParent; InactiveChild;
    DpeNotMarkedInitialized; InvalidMarker; VersionMismatch].

Lemma canon_found e :
  find (fun x => N.eqb (get_error_code x) (get_error_code e)) canon_list = Some (canon_error e).
Proof.
  destruct e as [|c| | | | | | | | | | | | | | | | | | | | | |x|x|x]; try reflexivity; destruct x; reflexivity.
Qed.

Lemma canon_same a b : canon_error a = canon_error b -> same_error a b.
Proof.
  intros H.
  destruct a as [|x| | | | | | | | | | | | | | | | | | | | | |x|x|x];
    destruct b as [|y| | | | | | | | | | | | | | | | | | | | | |y|y|y];
    try (left; reflexivity); try discriminate H; try (right; exact I); cbn [canon_error] in H.
  - injection H as H. destruct x; destruct y; try discriminate H; try (left; reflexivity); right; exact I.
  - injection H as H. destruct x; destruct y; try discriminate H; try (left; reflexivity); right; exact I.
  - left. exact H.
Qed.

Lemma code_inj a b : get_error_code a = get_error_code b -> same_error a b.
Proof.
  intros H. apply canon_same. pose proof (canon_found a) as A. rewrite H, canon_found in A.
  injection A as A. symmetry. exact A.
Qed.

Lemma same_error_code a b : same_error a b -> get_error_code a = get_error_code b.
Proof.
  intros [->|H]; [reflexivity|].
  destruct a as [|x| | | | | | | | | | | | | | | | | | | | | |x|x|x];
    destruct b as [|y| | | | | | | | | | | | | | | | | | | | | |y|y|y]; try contradiction; try reflexivity;
    destruct x; try contradiction; destruct y; try contradiction; reflexivity.
Qed.

Lemma code_u32 e : u32 (get_error_code e).
Proof.
  destruct e as [|c| | | | | | | | | | | | | | | | | | | | | |x|x|x]; try reflexivity; destruct x; reflexivity.
Qed.
