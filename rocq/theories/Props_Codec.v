(** Props_Codec.v -- wire formats, status codes and response buffers: C22-C25. *)
From Verif Require Import Base Errors Types StateOps Env Wire Instance Commands RespBuf Response Lib Spec Exec
  Effects Forest DestroyProofs History Contract Steps Reach Denials CommandSpecs Responses WireSpec Codec Execute Toy.
Local Open Scope nat_scope.

(** ** C22: parsing requests *)

(** A byte string is accepted as command [c] exactly when it starts with the
    bytes of a request for [c]; nothing else is looked at. *)
Theorem C22_accepts_exactly :
  forall cf b c, all_bytes b -> (deserialize_command cf b = Ok c <-> request_of cf c b).
Proof. intros cf b c Hb. split; [apply deserialize_ok|apply deserialize_request]; exact Hb. Qed.
Print Assumptions C22_accepts_exactly.

(** A request is for at most one command. *)
Theorem C22_unambiguous :
  forall cf b c c', all_bytes b -> request_of cf c b -> request_of cf c' b -> c = c'.
Proof.
  intros cf b c c' Hb H H'. apply (deserialize_request cf c b Hb) in H. apply (deserialize_request cf c' b Hb) in H'.
  congruence.
Qed.
Print Assumptions C22_unambiguous.

(** What the encoder of the crate produces is such a request, and it parses back
    whatever follows it. *)
Theorem C22_round_trip :
  forall cf c rest, command_wf cf c -> for_profile cf c ->
    serialize_command cf c = request c (own_profile cf) /\
    deserialize_command cf (serialize_command cf c ++ rest) = Ok c.
Proof.
  intros cf c rest W F. split; [apply serialize_request|apply deserialize_serialize; assumption].
Qed.
Print Assumptions C22_round_trip.

(** Everything else is refused: InvalidCommand when the header is short or wrong
    or the identifier is unknown, InvalidArgument when the header is right but no
    command follows.  Parsing never crashes and never reports another error. *)
Theorem C22_rejects :
  forall cf b, all_bytes b ->
    let known := exists id, known_id id /\ good_header cf b id in
    let complete := exists c, request_of cf c b in
    (deserialize_command cf b = Err InvalidCommand <-> ~ known) /\
    (deserialize_command cf b = Err InvalidArgument <-> known /\ ~ complete) /\
    (forall k, deserialize_command cf b <> Crash k) /\
    (forall e, deserialize_command cf b = Err e -> e = InvalidCommand \/ e = InvalidArgument).
Proof.
  intros cf b Hb known complete. pose proof (deserialize_cases cf b Hb) as H.
  assert (K : forall c, request_of cf c b -> known).
  { intros c (W & F & p & rest & -> & Hp & Hc). exists (request_id c). split.
    - unfold known_id. destruct c; cbn; tauto.
    - exists p, (concat (command_fields c) ++ rest). unfold request. rewrite <- !app_assoc.
      split; [reflexivity|]. split; [rewrite request_id_eq; apply id_u32|]. split; [exact Hp|].
      destruct Hc as [->|E]; [intros X; exfalso; apply X; reflexivity|auto]. }
  destruct (deserialize_command cf b) as [c|e|k] eqn:E; [| |contradiction].
  - apply deserialize_ok in E; [|exact Hb]. pose proof (K c E) as K1.
    repeat split; try discriminate; try tauto.
    intros [_ X]. exfalso. apply X. exists c. exact E.
  - assert (NC : ~ complete).
    { intros (c & Hc). apply deserialize_request in Hc; [|exact Hb]. congruence. }
    destruct H as [[-> H]|[-> (id & H1 & _ & H2)]].
    + repeat split; try discriminate; try tauto. intros e X. injection X as <-. auto.
    + assert known by (exists id; auto).
      repeat split; try discriminate; try tauto. intros e X. injection X as <-. auto.
Qed.
Print Assumptions C22_rejects.

(** A GetProfile request with a foreign profile word and trailing bytes, a
    request that is cut short, and one with another profile's word. *)
Example C22_case :
  request_of toy_cf CmdGetProfile ([67; 69; 80; 68] ++ [1; 0; 0; 0] ++ [9; 9; 0; 0] ++ [7; 7])%N /\
  request_of toy_cf (CmdRotateCtx H0 5) ([67; 69; 80; 68] ++ [14; 0; 0; 0] ++ [3; 0; 0; 0] ++ H0 ++ [5; 0; 0; 0])%N /\
  deserialize_command toy_cf ([67; 69; 80; 68] ++ [14; 0; 0; 0] ++ [3; 0; 0; 0] ++ H0 ++ [5; 0; 0])%N
    = Err InvalidArgument /\
  deserialize_command toy_cf ([67; 69; 80; 68] ++ [14; 0; 0; 0] ++ [4; 0; 0; 0] ++ H0 ++ [5; 0; 0; 0])%N
    = Err InvalidCommand.
Proof.
  split; [|split; [|split; reflexivity]].
  - split; [exact I|]. split; [exact I|]. exists 2313%N, [7; 7]%N. split; [reflexivity|]. split; [reflexivity|auto].
  - split; [split; [split; [reflexivity|repeat constructor]|reflexivity]|]. split; [exact I|].
    exists 3%N, []. split; [reflexivity|]. split; [reflexivity|auto].
Qed.

(** ** C23: responses *)

(** Reading the bytes of a response gives it back, whatever follows; anything
    that can be read is the encoding of what was read, padded with zeroes if it
    was cut short. *)
Theorem C23_round_trip :
  forall cf cmd r rest, answers cf cmd r ->
    N.of_nat (length (response_bytes r)) = wire_size cf cmd /\
    try_read_from_bytes cf cmd (response_bytes r ++ rest) = Ok r.
Proof.
  intros cf cmd r rest A. split; [rewrite (response_length cf cmd r A), size_wire; lia|].
  apply try_read_full. exact A.
Qed.
Print Assumptions C23_round_trip.

Theorem C23_canonical :
  forall cf cmd b r, all_bytes b -> try_read_from_bytes cf cmd b = Ok r ->
    answers cf cmd r /\
    response_bytes r = firstn (N.to_nat (wire_size cf cmd)) (b ++ repeat 0%N (N.to_nat (wire_size cf cmd))).
Proof.
  intros cf cmd b r Hb H. rewrite try_read_padded in H.
  destruct (read_prefix cf cmd (b ++ repeat 0%N (response_size cf cmd - length b))) as [r0|] eqn:E; [|discriminate].
  cbn [ok_or] in H. apply Ok_inj in H. subst r0.
  apply read_prefix_inv in E as (A & rest & E); [|apply all_bytes_app; split; [exact Hb|apply all_bytes_zero]].
  split; [exact A|]. pose proof (response_length cf cmd r A) as L. rewrite size_wire in L, E.
  set (S := N.to_nat (wire_size cf cmd)) in *.
  assert (X : firstn S (b ++ repeat 0%N (S - length b)) = response_bytes r).
  { rewrite E, firstn_app, <- L, Nat.sub_diag, firstn_O, app_nil_r. apply firstn_all. }
  rewrite <- X, !firstn_app, !firstn_repeat. f_equal. f_equal. lia.
Qed.
Print Assumptions C23_canonical.

(** Only the part of a certificate that is in use goes over the wire, and the
    receiver gets the response back with the rest of the area zeroed.  A size
    field larger than the area is refused. *)
Theorem C23_partial_round_trip :
  forall cf cmd r, answers cf cmd r ->
    match cert_area r with
    | None => response_bytes_partial cf r = Ok (response_bytes r)
    | Some (n, cert) =>
        ((n <= max_cert_size cf)%N ->
          exists b unused, response_bytes_partial cf r = Ok b /\ response_bytes r = b ++ unused /\
            (N.of_nat (length unused) + n = max_cert_size cf)%N /\
            forall k, try_read_from_bytes cf cmd (b ++ repeat 0%N k) = Ok (trim r)) /\
        ((max_cert_size cf < n)%N -> exists e, response_bytes_partial cf r = Err (InternalError e))
    end.
Proof.
  intros cf cmd r A. destruct (cert_area r) as [[n cert]|] eqn:E; [|apply partial_plain; exact E].
  split; intros Hn.
  - destruct (partial_ok cf _ _ _ _ A E Hn) as (b & H1 & (u & H2 & H3) & H4). exists b, u. auto.
  - exact (partial_err cf _ _ _ _ A E Hn).
Qed.
Print Assumptions C23_partial_round_trip.

(** The structure a Rust caller gets from [execute] is, byte for byte, what the
    command wrote into the buffer; it carries a success header; reading it back
    never fails.  Errors pass through; the caller's own buffer is untouched. *)
Theorem C23_execute :
  forall cf e cmd loc w r w',
    config_ok cf -> wf cf (w_st w) -> command_wf cf cmd -> sane_writer cf (e_cert e) ->
    execute cf (e_C e) (e_P e) (e_crypto e) (e_platform e) (e_cert e) cmd loc w = (r, w') ->
    exists r0 w1,
      exec_command cf (e_C e) (e_P e) (e_crypto e) (e_platform e) (e_cert e) cmd loc
        (mkWorld (w_st w) (w_c w) (w_p w) (repeat 0%N (N.to_nat (wire_size cf cmd)))) = (r0, w1) /\
      w' = mkWorld (w_st w1) (w_c w1) (w_p w1) (w_out w) /\
      match r0 with
      | Ok _ => exists resp, r = Ok resp /\ answers cf cmd resp /\ response_bytes resp = w_out w1 /\
          response_hdr_of resp = {| rh_magic := 0x44504552; rh_status := 0; rh_profile := prof cf |}
      | Err e => r = Err e
      | Crash k => r = Crash k
      end.
Proof. intros cf e cmd loc w r w' Hcf W Wc Hs H. eapply execute_spec; eauto. Qed.
Print Assumptions C23_execute.

(** The same over the wire: the [n] bytes a successful command reports are a
    response the client can read. *)
Theorem C23_wire :
  forall cf e cmd loc w n w',
    config_ok cf -> wf cf (w_st w) -> command_wf cf cmd -> sane_writer cf (e_cert e) -> all_bytes (w_out w) ->
    exec_command cf (e_C e) (e_P e) (e_crypto e) (e_platform e) (e_cert e) cmd loc w = (Ok n, w') ->
    let sent := firstn (N.to_nat n) (w_out w') in
    exists resp, try_read_from_bytes cf cmd sent = Ok resp /\ answers cf cmd resp /\
      response_hdr_of resp = {| rh_magic := 0x44504552; rh_status := 0; rh_profile := prof cf |} /\
      response_bytes resp = firstn (N.to_nat (wire_size cf cmd)) (sent ++ repeat 0%N (N.to_nat (wire_size cf cmd))).
Proof. intros cf e cmd loc w n w' Hcf W Wc Hs Hb H. eapply wire_spec; eauto. Qed.
Print Assumptions C23_wire.

(** Requests that do not parse are refused without effect; every other failure
    is answered by a response that carries the error's status code. *)
Theorem C23_serialized_command :
  forall cf e loc b w r w',
    config_ok cf -> wf cf (w_st w) ->
    execute_serialized_command cf (e_C e) (e_P e) (e_crypto e) (e_platform e) (e_cert e) loc b w = (r, w') ->
    match deserialize_command cf b with
    | Ok cmd => exists r0, execute cf (e_C e) (e_P e) (e_crypto e) (e_platform e) (e_cert e) cmd loc w = (r0, w') /\
        match r0 with
        | Ok resp => r = Ok resp
        | Err e => r = Ok (RespError {| rh_magic := 0x44504552; rh_status := get_error_code e; rh_profile := prof cf |})
        | Crash k => r = Crash k
        end
    | Err e => r = Err e /\ w' = w
    | Crash k => r = Crash k /\ w' = w
    end.
Proof. intros cf e loc b w r w' Hcf W H. eapply serialized_spec; eauto. Qed.
Print Assumptions C23_serialized_command.

Lemma toy_cert_sane cf pk : sane_writer cf (toy_cert pk).
Proof.
  intros k a off s c p out r c' p' out' H. unfold toy_cert in H.
  destruct (off + 4 <=? length out)%nat eqn:E; inversion H; subst; [|split; [reflexivity|auto]].
  apply Nat.leb_le in E. unfold overwrite. cbn [length]. split.
  - rewrite !app_length, firstn_length, skipn_length. cbn [length]. lia.
  - intros _ _ _ _ B. rewrite !all_bytes_app. split; [apply all_bytes_firstn; exact B|].
    split; [repeat constructor|apply all_bytes_skipn; exact B].
Qed.

(** A rotation and a failing one, through the byte interface. *)
Definition toy_world (l : list (command * N)) : world toy_c unit := toy_run toy_env l toy_w0.
Example C23_case :
  (let w := toy_world [(init_simulation, 0%N)] in
   fst (execute_serialized_command toy_cf toy_c unit (toy_crypto counting) toy_platform (toy_cert (PkEcdsa256 [1%N] [2%N]))
          0 (serialize_command toy_cf (CmdRotateCtx (Hn 1) 0)) w)
   = Ok (RespRotateCtx {| rh_magic := 0x44504552; rh_status := 0; rh_profile := P256Sha256 |} (Hn 2)) /\
   fst (execute_serialized_command toy_cf toy_c unit (toy_crypto counting) toy_platform (toy_cert (PkEcdsa256 [1%N] [2%N]))
          0 (serialize_command toy_cf (CmdRotateCtx (Hn 5) 0)) w)
   = Ok (RespError {| rh_magic := 0x44504552; rh_status := 0x80; rh_profile := P256Sha256 |})) /\
  sane_writer toy_cf (e_cert toy_env) /\
  answers toy_cf (certify (Hn 1) 0)
    (RespCertifyKey P256Sha256 {| rh_magic := 1; rh_status := 0; rh_profile := P256Sha256 |} (Hn 2)
       (repeat 3%N 64) 5 (repeat 1%N (N.to_nat (max_cert_size toy_cf)))).
Proof.
  split; [vm_compute; split; reflexivity|]. split; [apply toy_cert_sane|].
  split; [repeat split|]. cbn [certify certify_profile]. split; [reflexivity|].
  split; [split; [reflexivity|apply all_bytes_le_bytes]|].
  split; [split; [reflexivity|]; apply Forall_forall; intros x Hx; apply repeat_spec in Hx; subst; reflexivity|].
  split; [reflexivity|]. split; [apply repeat_length|].
  apply Forall_forall; intros x Hx; apply repeat_spec in Hx; subst; reflexivity.
Qed.

(** ** C24: status codes *)

(** The status is a 32-bit word, zero exactly for success, and equal for two
    errors exactly when they differ at most in details it does not carry. *)
Theorem C24_status_codes :
  forall a b, u32 (get_error_code a) /\ (get_error_code a = 0%N <-> a = NoError) /\
    (get_error_code a = get_error_code b <-> same_error a b).
Proof.
  intros a b. split; [apply code_u32|]. split; [apply code_zero|].
  split; [apply code_inj|apply same_error_code].
Qed.
Print Assumptions C24_status_codes.

Example C24_case :
  get_error_code (CryptoErr (CEHash 3)) = get_error_code (CryptoErr (CEHash 4)) /\
  get_error_code InvalidHandle = 128%N /\ ~ same_error InvalidHandle InvalidLocality.
Proof. repeat split. intros [H|[]]. discriminate. Qed.

(** ** C25: response buffers *)

(** A write through any stack of views, whatever the offsets, either fits and
    changes exactly the addressed bytes of the underlying storage, or is refused
    and changes nothing. *)
Theorem C25_write :
  forall umax r off bs, (N.of_nat (length (backing r)) <= umax)%N ->
    let start := (origin r + off)%N in
    let fits := (start + N.of_nat (length bs) <= N.of_nat (length (backing r)))%N in
    (fits -> write_at umax r off bs = (true, rebacked r (overwrite (backing r) (N.to_nat start) bs))) /\
    (~ fits -> write_at umax r off bs = (false, r)).
Proof.
  intros umax r off bs Hu start fits. rewrite (write_at_spec umax r off bs Hu). fold start.
  destruct (N.leb_spec (start + N.of_nat (length bs)) (N.of_nat (length (backing r)))) as [H|H];
    split; intros F; try reflexivity; exfalso; unfold fits in F; lia.
Qed.
Print Assumptions C25_write.

(** Pointwise: bytes outside the window never change, and the window never
    reaches before the view's origin. *)
Theorem C25_confined :
  forall umax r off bs ok r', (N.of_nat (length (backing r)) <= umax)%N ->
    write_at umax r off bs = (ok, r') ->
    origin r' = origin r /\ length (backing r') = length (backing r) /\
    forall i, (i < N.to_nat (origin r + off) \/ N.to_nat (origin r + off) + length bs <= i) ->
      nth_error (backing r') i = nth_error (backing r) i.
Proof.
  intros umax r off bs ok r' Hu H. rewrite (write_at_spec umax r off bs Hu) in H.
  destruct (N.leb_spec (origin r + off + N.of_nat (length bs)) (N.of_nat (length (backing r)))) as [L|L];
    inversion H; subst; [|split; [reflexivity|auto]].
  rewrite origin_rebacked, backing_rebacked. split; [reflexivity|].
  set (o := N.to_nat (origin r + off)). unfold overwrite.
  assert (Lf : length (firstn o (backing r)) = o) by (rewrite firstn_length; lia).
  split; [rewrite !app_length, Lf, skipn_length; lia|].
  intros i [Hi|Hi].
  - rewrite nth_error_app1 by lia. apply nth_firstn. lia.
  - rewrite nth_error_app2, Lf by lia. rewrite nth_error_app2 by lia.
    rewrite nth_skipn. f_equal. lia.
Qed.
Print Assumptions C25_confined.

(** Reads return exactly the addressed bytes, or are refused; what was written
    is what is read. *)
Theorem C25_read :
  forall umax r a z, (N.of_nat (length (backing r)) <= umax)%N ->
    let ok := (a <= z /\ origin r + z <= N.of_nat (length (backing r)))%N in
    (ok -> read_range umax r a z = Some (firstn (N.to_nat (z - a)) (skipn (N.to_nat (origin r + a)) (backing r)))) /\
    (~ ok -> read_range umax r a z = None).
Proof.
  intros umax r a z Hu ok. rewrite (read_range_spec umax r a z Hu).
  destruct (N.leb_spec a z), (N.leb_spec (origin r + z) (N.of_nat (length (backing r)))); cbn [andb];
    split; intros F; try reflexivity; exfalso; unfold ok in F; lia.
Qed.
Print Assumptions C25_read.

Theorem C25_read_after_write :
  forall umax r off bs r', (N.of_nat (length (backing r)) <= umax)%N ->
    write_at umax r off bs = (true, r') -> read_range umax r' off (off + N.of_nat (length bs)) = Some bs.
Proof.
  intros umax r off bs r' Hu H. rewrite (write_at_spec umax r off bs Hu) in H.
  destruct (N.leb_spec (origin r + off + N.of_nat (length bs)) (N.of_nat (length (backing r)))) as [L|L];
    inversion H; subst; clear H.
  set (o := N.to_nat (origin r + off)).
  assert (Lf : length (firstn o (backing r)) = o) by (rewrite firstn_length; lia).
  assert (Lo : length (overwrite (backing r) o bs) = length (backing r)).
  { unfold overwrite. rewrite !app_length, Lf, skipn_length. lia. }
  rewrite read_range_spec; rewrite backing_rebacked, ?origin_rebacked, Lo; [|exact Hu].
  replace (N.leb off (off + N.of_nat (length bs)) && N.leb (origin r + (off + N.of_nat (length bs))) (N.of_nat (length (backing r))))%bool
    with true by (symmetry; apply andb_true_iff; split; apply N.leb_le; lia).
  fold o. unfold overwrite. rewrite skipn_app, Lf, Nat.sub_diag, skipn_all2 by lia. cbn [skipn app].
  replace (N.to_nat (off + N.of_nat (length bs) - off)) with (length bs) by lia.
  rewrite firstn_app, Nat.sub_diag, firstn_O, app_nil_r, firstn_all. reflexivity.
Qed.
Print Assumptions C25_read_after_write.

(** The capacity is the room behind the origin, and clearing zeroes exactly it. *)
Theorem C25_capacity_and_clear :
  forall umax r, (N.of_nat (length (backing r)) <= umax)%N ->
    capacity r = (N.of_nat (length (backing r)) - origin r)%N /\
    clear umax r = (true, rebacked r (firstn (N.to_nat (origin r)) (backing r) ++
                      repeat 0%N (length (backing r) - N.to_nat (origin r)))).
Proof. intros umax r Hu. split; [apply capacity_eq|apply clear_spec; exact Hu]. Qed.
Print Assumptions C25_capacity_and_clear.

(** The command model writes its response the same way ([write_out] with an
    unbounded [usize]). *)
Theorem C25_commands_use_it :
  forall (C P : Type) umax off bs (w : world C P) r w',
    (N.of_nat (length (w_out w)) <= umax)%N -> write_out off bs w = (r, w') ->
    match r with
    | Ok _ => write_at umax (Slice (w_out w)) (N.of_nat off) bs = (true, Slice (w_out w'))
    | Err e => e = InvalidResponseBuf /\ w' = w /\
               write_at umax (Slice (w_out w)) (N.of_nat off) bs = (false, Slice (w_out w))
    | Crash _ => False
    end.
Proof.
  intros C P umax off bs w r w' Hu H. unfold write_out in H.
  rewrite (write_at_spec umax (Slice (w_out w)) (N.of_nat off) bs Hu). cbn [backing origin rebacked].
  destruct (Nat.leb_spec (off + length bs) (length (w_out w))) as [L|L]; injection H as <- <-;
    destruct (N.leb_spec (0 + N.of_nat off + N.of_nat (length bs)) (N.of_nat (length (w_out w))));
    try (exfalso; lia); auto.
  cbn [w_out]. rewrite N.add_0_l, Nat2N.id. reflexivity.
Qed.
Print Assumptions C25_commands_use_it.

Example C25_case :
  let v := View 2 (View 1 (Slice [1; 2; 3; 4; 5; 6; 7]%N)) in
  write_at 100 v 1 [8; 9]%N = (true, View 2 (View 1 (Slice [1; 2; 3; 4; 8; 9; 7]%N))) /\
  write_at 100 v 3 [8; 9]%N = (false, v) /\ write_at 100 v 99 [8]%N = (false, v) /\
  clear 100 v = (true, View 2 (View 1 (Slice [1; 2; 3; 0; 0; 0; 0]%N))).
Proof. vm_compute. repeat split. Qed.
