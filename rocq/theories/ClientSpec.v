(** ClientSpec.v -- vocabulary for the statements about the client: the command a call
    means, the calls that can be sent, and what a response tells. *)
From Verif Require Import Base Errors Types Env Wire Commands Response Spec History WireSpec GoClient.
Open Scope N_scope.

(** The command that a call on a client of kind [k] means. *)
Definition meant (k : go_kind) (q : go_call) : command :=
  match q with
  | GcGetProfile => CmdGetProfile
  | GcInit f => CmdInitCtx f
  | GcDerive h d f t l =>
      CmdDeriveContext {| dc_handle := h; dc_data := d; dc_flags := f; dc_tci_type := t; dc_target_locality := l; dc_svn := 0 |}
  | GcDeriveABI h d f t l s =>
      CmdDeriveContext {| dc_handle := h; dc_data := d; dc_flags := f; dc_tci_type := t; dc_target_locality := l; dc_svn := s |}
  | GcCertify h l fmt f =>
      let c := {| ck_handle := h; ck_flags := f; ck_format := fmt; ck_label := l |} in
      CmdCertifyKey (match k with Min256 | Full256 => CertifyP256 c | Min384 | Full384 => CertifyP384 c | FullMldsa => CertifyMldsa87 c end)
  | GcSign h l f tbs =>
      let c := {| sg_handle := h; sg_label := l; sg_flags := f; sg_digest := tbs |} in
      CmdSign (match k with Min256 | Full256 => SignP256 c | Min384 | Full384 => SignP384 c | FullMldsa => SignMldsa87 c end)
  | GcSignRaw h l raw =>
      CmdSign (SignMldsa87Raw {| sr_handle := h; sr_label := l; sr_flags := 1; sr_size := N.of_nat (length raw);
                                 sr_raw := raw ++ repeat 0 (N.to_nat 1024 - length raw) |})
  | GcRotate h f => CmdRotateCtx h f
  | GcDestroy h => CmdDestroyCtx h
  | GcUpdate h d t =>
      CmdUpdateContextMeasurement {| uc_parent_handle := h; uc_data := d; uc_reserved := 0; uc_tci_type := t; uc_reserved_svn := 0 |}
  end.

(** The digest, label and data sizes, as numbers. *)
Definition label_size (k : go_kind) : nat := match k with Min256 | Full256 => 32 | _ => 48 end%nat.
Definition message_size (k : go_kind) : nat :=
  match k with Min256 | Full256 => 32 | Min384 | Full384 => 48 | FullMldsa => 64 end%nat.

(** Arguments of the right types and lengths.  [Sign] is for digests: for ML-DSA it must
    not ask for a raw message (bit 0), which has another layout; raw messages exist for
    ML-DSA only and have at most 1024 bytes. *)
Definition usable (k : go_kind) (q : go_call) : Prop :=
  match q with
  | GcGetProfile => True
  | GcInit f => u32 f
  | GcDerive h d f t l => byte_string 16 h /\ byte_string (label_size k) d /\ u32 f /\ u32 t /\ u32 l
  | GcDeriveABI h d f t l s => byte_string 16 h /\ byte_string (label_size k) d /\ u32 f /\ u32 t /\ u32 l /\ u32 s
  | GcCertify h l fmt f => byte_string 16 h /\ byte_string (label_size k) l /\ u32 fmt /\ u32 f
  | GcSign h l f tbs => byte_string 16 h /\ byte_string (label_size k) l /\ u32 f /\ byte_string (message_size k) tbs /\
      (k = FullMldsa -> N.testbit f 0 = false)
  | GcSignRaw h l raw => k = FullMldsa /\ byte_string 16 h /\ byte_string (label_size k) l /\ all_bytes raw /\ N.of_nat (length raw) <= 1024
  | GcRotate h f => byte_string 16 h /\ u32 f
  | GcDestroy h => byte_string 16 h
  | GcUpdate h d t => byte_string 16 h /\ byte_string (label_size k) d /\ u32 t
  end.

(** Calls that the client itself refuses: a digest, label or message of the wrong length, a
    raw message for another profile or that is too long. *)
Definition unusable_length (k : go_kind) (q : go_call) : Prop :=
  match q with
  | GcDerive _ d _ _ _ | GcUpdate _ d _ => length d <> label_size k
  | GcCertify _ l _ _ => length l <> label_size k
  | GcSign _ l _ tbs => length l <> label_size k \/ length tbs <> message_size k
  | GcSignRaw _ l raw => k <> FullMldsa \/ length l <> label_size k \/ 1024 < N.of_nat (length raw)
  | _ => False
  end.

(** The profile words of the DPE profile specification. *)
Definition kind_profile (k : go_kind) : N :=
  match k with Min256 => 1 | Min384 => 2 | Full256 => 3 | Full384 => 4 | FullMldsa => 5 end.

(** What a response tells, from its fields: the elliptic-curve key and signature in two
    halves; the ML-DSA signature without the padding byte; the used part of the
    certificate. *)
Definition told (cf : config) (r : response) : go_value :=
  match r with
  | RespGetProfile _ ma mi vi vs mt fl => VProfile (own_profile cf) ma mi vi vs mt fl
  | RespInitCtx _ x | RespRotateCtx _ x => VHandle x
  | RespDeriveContext _ x y => VDerived x y (repeat 0 32) 0 []
  | RespExportedCdi _ x y cdi n cert => VDerived x y cdi n (firstn (N.to_nat n) cert)
  | RespCertifyKey p _ x pk n cert =>
      match p with
      | P256Sha256 => VKey x (firstn 32 pk) (skipn 32 pk) (firstn (N.to_nat n) cert)
      | P384Sha384 => VKey x (firstn 48 pk) (skipn 48 pk) (firstn (N.to_nat n) cert)
      | Mldsa87 => VKey x pk (repeat 0 (N.to_nat 2592)) (firstn (N.to_nat n) cert)
      end
  | RespSign p _ x sg =>
      match p with
      | P256Sha256 => VSigned x (firstn 32 sg) (skipn 32 sg) []
      | P384Sha384 => VSigned x (firstn 48 sg) (skipn 48 sg) []
      | Mldsa87 => VSigned x [] [] (firstn (N.to_nat 4627) sg)
      end
  | RespUpdate _ x y => VUpdated x y
  | RespDestroyCtx _ | RespCertificateChain _ _ _ | RespError _ => VNone
  end.

(** A client made for this device: of the right kind, with the sizes and the command codes
    of the device. *)
Record suits (cf : config) (k : go_kind) : Prop := {
  su_profile : kind_profile k = own_profile cf;
  su_digest : tci_size cf = label_size k;
  su_cert : max_cert_size cf <= match k with Min256 | Min384 => 2048 | Full256 | Full384 => 11264 | FullMldsa => 22528 end
}.
Definition made_for (cf : config) (c : go_client) : Prop :=
  suits cf (cl_kind c) /\ cl_codes c = codes_v09 /\ cl_profile c = own_profile cf.

(** Several calls, each in a locality. *)
Fixpoint go_session {T} (send : N -> bytes -> T -> option bytes * T) (c : go_client) (l : list (N * go_call)) (t : T)
  : list (go_result go_value) * T :=
  match l with
  | [] => ([], t)
  | (loc, q) :: l' =>
      let (v, t1) := go_do T (send loc) c q t in
      let (vs, t2) := go_session send c l' t1 in
      (v :: vs, t2)
  end.

(** What a caller of the client gets to know about a command that ended with [r] and the
    response buffer [out]. *)
Definition understood (cf : config) (cmd : command) (r : result N) (out : bytes) (v : go_result go_value) : Prop :=
  match r with
  | Ok _ => exists resp, answers cf cmd resp /\ response_bytes resp = out /\ v = GoOk (told cf resp)
  | Err e => v = GoErr (GoStatus (get_error_code e))
  | Crash _ => False
  end.

(** A device that hands out [chain] in pieces of 2048 bytes, and answers a request at the
    end or behind it with the status [st]. *)
Definition chain_request (c : go_client) (off : N) : bytes :=
  [67; 69; 80; 68] ++ le_bytes 4 (gc_chain (cl_codes c)) ++ le_bytes 4 (cl_profile c) ++ le_bytes 4 off ++ le_bytes 4 2048.
Definition serves_chain {T} (send : bytes -> T -> option bytes * T) (c : go_client) (chain : bytes) (st : N) (fine : T -> Prop) : Prop :=
  forall t off, fine t -> u32 off -> exists p t', u32 p /\ fine t' /\
    if N.ltb off (N.of_nat (length chain))
    then exists part rest, skipn (N.to_nat off) chain = part ++ rest /\ (rest = [] \/ length part = N.to_nat 2048) /\
           (length part <= N.to_nat 2048)%nat /\
           exists pad, length (part ++ pad) = N.to_nat 2048 /\
             send (chain_request c off) t =
             (Some ([82; 69; 80; 68] ++ le_bytes 4 0 ++ le_bytes 4 p ++ le_bytes 4 (N.of_nat (length part)) ++ part ++ pad), t')
    else send (chain_request c off) t = (Some ([82; 69; 80; 68] ++ le_bytes 4 st ++ le_bytes 4 p), t').
