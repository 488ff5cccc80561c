(** Viewer.v -- the certificate viewer of the tools crate (/repo/tools/src/lib.rs): from
    the bytes of a certificate, a signed request or a whole CertifyKey response to the
    contents of the report it prints.

    The crates it parses with (asn1 0.13, x509-parser 0.15.1, cms 0.2, der 0.7) are
    modelled as follows.  Their reading of tags and lengths is the strict decoder of Der.v,
    applied to the whole value at once instead of field by field.  Three checks are
    parameters: that octets are UTF-8, that octets are a time, and PEM decoding.  Unique
    identifiers, certificates and revocation lists inside CMS messages, and signed
    attributes are left out: a value with them is not recognised.  Names and times are kept
    as DER values and not turned into text; object identifiers are kept as their contents
    octets (their dotted form determines them). *)
From Verif Require Import Base Types Der X509Spec X509Read.
From Coq Require Import String.
Open Scope N_scope.

(** ** Records (lib.rs:70-121) *)

(** [ParsedFwid], lib.rs:70-74. *)
Record vfwid := { vf_alg : bytes; vf_digest : bytes }.
(** [ParsedIntegrityRegister], lib.rs:76-81. *)
Record vregister := { vr_name : option bytes; vr_num : option N; vr_digests : list vfwid }.
(** [ParsedTcbInfo], lib.rs:83-97.  BIT STRINGs as their contents octets. *)
Record vtcb := {
  vt_vendor : option bytes; vt_model : option bytes; vt_version : option bytes;
  vt_svn : option N; vt_layer : option N; vt_index : option N;
  vt_fwids : list vfwid; vt_flags : option bytes;
  vt_vendor_info : option bytes; vt_type : option bytes;
  vt_mask : option bytes; vt_registers : list vregister
}.
(** The text of the details column (lib.rs:306-404), before formatting. *)
Inductive details :=
| DSingle                                                  (* "Single TCB Context" *)
| DLegacy                                                  (* "Single TCB Context (Legacy)" *)
| DSingleFailed                                            (* "Failed to parse TcbInfo" *)
| DContains (n : nat)                                      (* "Contains n TCB Context(s)" *)
| DMultiFailed                                             (* "Failed to parse SequenceOf<TcbInfo>: ..." *)
| DUeid (b : bytes)                                        (* "UEID: ..." *)
| DRaw (b : bytes)                                         (* "Raw bytes: ..." *)
| DConstraints (ca : bool) (path : option N)               (* "CA: ..., PathLen: ..." *)
| DUsage (digital_signature key_cert_sign : bool)          (* "DigitalSignature: ..., KeyCertSign: ..." *)
| DPurposes (l : list bytes)                               (* "EKU OIDs: ..." *)
| DSki (b : bytes)                                         (* "SKI: ..." *)
| DAki (b : option bytes)                                  (* "KeyID: ..." *)
| DLength (n : nat).                                       (* "Raw length: n bytes" *)
(** [ParsedExtension], lib.rs:99-105; the name is [friendly_name] of the identifier. *)
Record vext := { ve_oid : bytes; ve_critical : bool; ve_details : details }.
(** The labels of [infer_dpe_profile]. *)
Inductive label := LMldsa87 | LP384 | LP256 | LUnknown.
(** [ParsedCert], lib.rs:107-121.  Fields that read "N/A (CSR)" are [None]. *)
Record shown := {
  sh_is_csr : bool; sh_subject : der; sh_issuer : option der; sh_serial : option bytes;
  sh_sig_alg : bytes; sh_validity : option (bytes * bytes); sh_key_alg : bytes;
  sh_profile : label; sh_ueid : option bytes; sh_tcbs : list vtcb; sh_exts : list vext
}.

(** ** Identifiers (lib.rs:61-66, 150-174) *)

Definition oid_tcb_info := [2; 23; 133; 5; 4; 1].
Definition oid_multi_tcb_info := [2; 23; 133; 5; 4; 5].
Definition oid_ueid := [2; 23; 133; 5; 4; 4].
Definition oid_kp_attest_loc := [2; 23; 133; 5; 4; 100; 9].
Definition oid_kp_eca := [2; 23; 133; 5; 4; 100; 12].
(** [oid_friendly_name], lib.rs:150-174; [None]: the dotted form. *)
Definition friendly_names : list (list N * string) :=
  [ ([2; 16; 840; 1; 101; 3; 4; 2; 1], "SHA-256 (2.16.840.1.101.3.4.2.1)");
    ([2; 16; 840; 1; 101; 3; 4; 2; 2], "SHA-384 (2.16.840.1.101.3.4.2.2)");
    ([2; 16; 840; 1; 101; 3; 4; 2; 3], "SHA-512 (2.16.840.1.101.3.4.2.3)");
    ([2; 16; 840; 1; 101; 3; 4; 3; 19], "ML-DSA-87 (2.16.840.1.101.3.4.3.19)");
    ([1; 2; 840; 10045; 2; 1], "ecPublicKey");
    ([1; 2; 840; 10045; 3; 1; 7], "secp256r1 (P-256)");
    ([1; 3; 132; 0; 34], "secp384r1 (P-384)");
    ([1; 2; 840; 10045; 4; 3; 2], "ecdsa-with-SHA256");
    ([1; 2; 840; 10045; 4; 3; 3], "ecdsa-with-SHA384");
    (oid_tcb_info, "tcg-dice-TcbInfo");
    (oid_multi_tcb_info, "tcg-dice-MultiTcbInfo");
    (oid_ueid, "tcg-dice-Ueid");
    (oid_kp_attest_loc, "tcg-dice-kp-attestLoc");
    (oid_kp_eca, "tcg-dice-kp-eca");
    ([2; 5; 29; 19], "basicConstraints");
    ([2; 5; 29; 15], "keyUsage");
    ([2; 5; 29; 37], "extendedKeyUsage");
    ([2; 5; 29; 14], "subjectKeyIdentifier");
    ([2; 5; 29; 35], "authorityKeyIdentifier");
    ([2; 5; 29; 17], "subjectAltName") ]%string.
Definition is_arcs (arcs : list N) (o : bytes) : bool := bytes_eqb o (oid_content arcs).
Definition friendly_name (o : bytes) : option string :=
  option_map snd (find (fun x => is_arcs (fst x) o) friendly_names).

(** ** Values of the asn1 crate *)

(** The contents octets of an OBJECT IDENTIFIER: not empty, the last one ends an arc and
    no arc starts with a zero digit. *)
Fixpoint arcs_ok (start : bool) (b : bytes) : bool :=
  match b with
  | [] => start
  | x :: r => negb (start && N.eqb x 128) && arcs_ok (N.ltb x 128) r
  end.
Definition oid_ok (b : bytes) : bool := match b with [] => false | _ => arcs_ok true b end.
(** [u64]: shortest form, not negative, at most 64 bits. *)
Definition read_u64 (b : bytes) : option N :=
  match b with
  | [] => None
  | x :: r =>
      if N.leb 128 x then None
      else if match r with y :: _ => N.eqb x 0 && N.ltb y 128 | [] => false end then None
      else if N.ltb (be_val b) (2 ^ 64) then Some (be_val b) else None
  end.
(** [BitString]: the number of unused bits, which must be zero. *)
Definition bits_ok (b : bytes) : bool :=
  match b with
  | [] => false
  | [p] => N.eqb p 0
  | p :: r => N.ltb p 8 && N.eqb (N.modulo (last r 0) (2 ^ p)) 0
  end.

(** An optional field with an implicit tag is read if the next value has the tag: the
    fields of a structure are read in order and nothing may be left. *)
Definition take {A} (tag : N) (f : der -> option A) (l : list der) : option (option A * list der) :=
  match l with
  | (Prim g _ | Cons g _) as t :: r =>
      if N.eqb g tag then match f t with Some a => Some (Some a, r) | None => None end else Some (None, l)
  | _ => Some (None, l)
  end.
Definition the_octets (t : der) : option bytes := match t with Prim _ c => Some c | _ => None end.
Definition the_kids (t : der) : option (list der) := match t with Cons _ k => Some k | _ => None end.
Definition checked (f : bytes -> bool) (t : der) : option bytes :=
  do b <- the_octets t; do _ <- guard (f b); Some b.
Definition the_u64 (t : der) : option N := do b <- the_octets t; read_u64 b.
Definition or_nil {A} (o : option (list A)) : list A := match o with Some l => l | None => [] end.

Section Viewer.
  (** [std::str::from_utf8], the parsers of UTCTime and GeneralizedTime, [pem::parse]. *)
  Variable utf8 : bytes -> bool.
  Variable time : N -> bytes -> bool.
  Variable pem : bytes -> option bytes.

  (** [Fwid], lib.rs:5-9. *)
  Definition view_fwid (t : der) : option vfwid :=
    do l <- members 0x30 t;
    match l with
    | [h; d] =>
        do h <- contents 0x06 h; do _ <- guard (oid_ok h); do d <- contents 0x04 d;
        Some {| vf_alg := h; vf_digest := d |}
    | _ => None
    end.
  Definition view_fwids (t : der) : option (list vfwid) :=
    do l <- the_kids t; all_some (map view_fwid l).
  (** [IntegrityRegister], lib.rs:11-19, 189-204. *)
  Definition view_register (t : der) : option vregister :=
    do l <- members 0x30 t;
    do (name, l) <- take 0x80 (checked (forallb (fun b => N.ltb b 128))) l;
    do (num, l) <- take 0x81 the_u64 l;
    do (digests, l) <- take 0xA2 view_fwids l;
    match l with
    | [] => Some {| vr_name := name; vr_num := num; vr_digests := or_nil digests |}
    | _ => None
    end.
  Definition view_registers (t : der) : option (list vregister) :=
    do l <- the_kids t; all_some (map view_register l).
  (** [TcbInfo] and [parse_single_tcb_info], lib.rs:21-47, 176-224; with [legacy]
      [LegacyTcbInfo] and [parse_legacy_tcb_info], lib.rs:226-297. *)
  Definition view_tcb (legacy : bool) (t : der) : option vtcb :=
    do l <- members 0x30 t;
    do (vendor, l) <- take 0x80 (checked utf8) l;
    do (model, l) <- take 0x81 (checked utf8) l;
    do (version, l) <- take 0x82 (checked utf8) l;
    do (svn, l) <- take 0x83 the_u64 l;
    do (layer, l) <- take 0x84 the_u64 l;
    do (index, l) <- take 0x85 the_u64 l;
    do (fwids, l) <- take 0xA6 view_fwids l;
    do (flags, l) <- take 0x87 (checked bits_ok) l;
    do (vendor_info, l) <- take 0x88 the_octets l;
    do (ty, l) <- take 0x89 the_octets l;
    do (mask, l) <- (if legacy then Some (None, l) else take 0x8A (checked bits_ok) l);
    do (registers, l) <- take (if legacy then 0xAA else 0xAB) view_registers l;
    match l with
    | [] =>
        Some {| vt_vendor := vendor; vt_model := model; vt_version := version; vt_svn := svn; vt_layer := layer;
                vt_index := index; vt_fwids := or_nil fwids; vt_flags := flags; vt_vendor_info := vendor_info;
                vt_type := ty; vt_mask := mask; vt_registers := or_nil registers |}
    | _ => None
    end.
  (** [asn1::parse_single]: one value and nothing behind it. *)
  Definition view_single (legacy : bool) (b : bytes) : option vtcb := do t <- decode b; view_tcb legacy t.
  Definition view_seq (legacy : bool) (b : bytes) : option (list vtcb) :=
    do t <- decode b; do l <- members 0x30 t; all_some (map (view_tcb legacy) l).
  Definition unwrapped (b : bytes) : option bytes := do t <- decode b; contents 0x04 t.
  Definition orelse {A} (a b : option A) : option A := match a with Some _ => a | None => b end.
  (** lib.rs:323-353: four attempts. *)
  Definition view_multi (b : bytes) : option (list vtcb) :=
    orelse (view_seq false b)
      (orelse (do c <- unwrapped b; view_seq false c)
        (orelse (view_seq true b) (do c <- unwrapped b; view_seq true c))).
  (** [Ueid], lib.rs:49-52. *)
  Definition view_ueid (b : bytes) : option bytes :=
    do t <- decode b; do l <- members 0x30 t; match l with [u] => contents 0x04 u | _ => None end.

  (** [X509Extension::parsed_extension] for the extensions that are shown in detail;
      every other one, and one that does not parse, is shown by its length
      (lib.rs:373-403). *)
  Definition view_constraints (b : bytes) : option details :=
    do t <- decode b; do l <- members 0x30 t;
    do (ca, l) <- take 0x01 (fun t => do b <- the_octets t; match b with [x] => Some (negb (N.eqb x 0)) | _ => None end) l;
    do (path, l) <- take 0x02 the_u64 l;
    match l with [] => Some (DConstraints (match ca with Some c => c | None => false end) path) | _ => None end.
  Definition view_usage (b : bytes) : option details :=
    do t <- decode b; do c <- contents 0x03 t; do _ <- guard (bits_ok c);
    match c with
    | _ :: x :: _ => Some (DUsage (N.testbit x 7) (N.testbit x 2))
    | _ => Some (DUsage false false)
    end.
  (** anyExtendedKeyUsage and the purposes of RFC 5280 that x509-parser has fields for. *)
  Definition known_purposes : list (list N) :=
    [[2; 5; 29; 37; 0]; [1; 3; 6; 1; 5; 5; 7; 3; 1]; [1; 3; 6; 1; 5; 5; 7; 3; 2]; [1; 3; 6; 1; 5; 5; 7; 3; 3];
     [1; 3; 6; 1; 5; 5; 7; 3; 4]; [1; 3; 6; 1; 5; 5; 7; 3; 8]; [1; 3; 6; 1; 5; 5; 7; 3; 9]].
  Definition view_purposes (b : bytes) : option details :=
    do t <- decode b; do l <- members 0x30 t; do l <- all_some (map (contents 0x06) l);
    Some (DPurposes (filter (fun o => negb (existsb (fun k => is_arcs k o) known_purposes)) l)).
  Definition view_ski (b : bytes) : option details := do t <- decode b; do c <- contents 0x04 t; Some (DSki c).
  Definition view_aki (b : bytes) : option details :=
    do t <- decode b; do l <- members 0x30 t; do (kid, _) <- take 0x80 the_octets l; Some (DAki kid).
  Definition view_other (oid v : bytes) : details :=
    match
      (if is_arcs [2; 5; 29; 19] oid then view_constraints v
       else if is_arcs [2; 5; 29; 15] oid then view_usage v
       else if is_arcs [2; 5; 29; 37] oid then view_purposes v
       else if is_arcs [2; 5; 29; 14] oid then view_ski v
       else if is_arcs [2; 5; 29; 35] oid then view_aki v
       else None)
    with Some d => d | None => DLength (List.length v) end.

  (** One turn of the loop of [parse_extensions], lib.rs:306-412: the contexts so far, the
      UEID so far and the table so far. *)
  Definition ext_step (acc : list vtcb * option bytes * list vext) (e : bytes * bool * bytes) :=
    let '(tcbs, ueid, exts) := acc in
    let '(oid, critical, v) := e in
    let '(more, ueid', d) :=
      if is_arcs oid_tcb_info oid then
        match view_single false v with
        | Some t => ([t], ueid, DSingle)
        | None => match view_single true v with Some t => ([t], ueid, DLegacy) | None => ([], ueid, DSingleFailed) end
        end
      else if is_arcs oid_multi_tcb_info oid then
        match view_multi v with
        | Some l => (l, ueid, DContains (List.length l))
        | None => ([], ueid, DMultiFailed)
        end
      else if is_arcs oid_ueid oid then
        match view_ueid v with Some u => ([], Some u, DUeid u) | None => ([], ueid, DRaw v) end
      else ([], ueid, view_other oid v) in
    (tcbs ++ more, ueid', exts ++ [{| ve_oid := oid; ve_critical := critical; ve_details := d |}]).
  (** [parse_extensions], lib.rs:299-415. *)
  Definition view_exts (l : list (bytes * bool * bytes)) := fold_left ext_step l ([], None, []).

  (** [infer_dpe_profile], lib.rs:417-442. *)
  Definition infer_profile (pk sig : bytes) (tcbs : list vtcb) : label :=
    if is_arcs [2; 16; 840; 1; 101; 3; 4; 3; 19] pk || is_arcs [2; 16; 840; 1; 101; 3; 4; 3; 19] sig then LMldsa87
    else
      let hash := match tcbs with t :: _ => match vt_fwids t with f :: _ => Some (vf_alg f) | [] => None end | [] => None end in
      let hash_is a := match hash with Some h => is_arcs a h | None => false end in
      if is_arcs [1; 2; 840; 10045; 4; 3; 3] sig || is_arcs [1; 3; 132; 0; 34] pk || hash_is [2; 16; 840; 1; 101; 3; 4; 2; 2]
      then LP384
      else if is_arcs [1; 2; 840; 10045; 4; 3; 2] sig || is_arcs [1; 2; 840; 10045; 3; 1; 7] pk
              || hash_is [2; 16; 840; 1; 101; 3; 4; 2; 1]
      then LP256
      else LUnknown.

  (** ** Certificates and requests (x509-parser) *)

  Definition name_ok (t : der) : bool :=
    match members 0x30 t with
    | Some rdns =>
        forallb (fun s => match members 0x31 s with
          | Some avs => forallb (fun av => match members 0x30 av with
              | Some [o; _] => match contents 0x06 o with Some _ => true | None => false end
              | _ => false end) avs
          | None => false end) rdns
    | None => false
    end.
  (** AlgorithmIdentifier: the identifier, and parameters if there are any. *)
  Definition alg_of (t : der) : option bytes :=
    do l <- members 0x30 t;
    match l with [o] | [o; _] => contents 0x06 o | _ => None end.
  (** SubjectPublicKeyInfo: the algorithm. *)
  Definition key_alg_of (t : der) : option bytes :=
    do l <- members 0x30 t;
    match l with [a; k] => do o <- alg_of a; do k <- contents 0x03 k; do _ <- guard (negb (Nat.eqb (List.length k) 0)); Some o | _ => None end.
  Definition time_of (t : der) : option bytes :=
    match t with
    | Prim g c => if (N.eqb g 0x17 || N.eqb g 0x18) && time g c then Some c else None
    | _ => None
    end.
  Definition validity_of (t : der) : option (bytes * bytes) :=
    do l <- members 0x30 t;
    match l with [a; b] => do a <- time_of a; do b <- time_of b; Some (a, b) | _ => None end.
  (** Extension: identifier, criticality if not the default, value. *)
  Definition ext_of (t : der) : option (bytes * bool * bytes) :=
    do l <- members 0x30 t;
    match l with
    | [o; v] => do o <- contents 0x06 o; do v <- contents 0x04 v; Some (o, false, v)
    | [o; c; v] =>
        do o <- contents 0x06 o; do c <- contents 0x01 c; do v <- contents 0x04 v;
        match c with [x] => Some (o, negb (N.eqb x 0), v) | _ => None end
    | _ => None
    end.
  Definition exts_of (t : der) : option (list (bytes * bool * bytes)) :=
    do l <- members 0x30 t; all_some (map ext_of l).
  (** The signed part, the algorithm and the signature. *)
  Definition signed_parts (t : der) : option (list der * bytes) :=
    do l <- members 0x30 t;
    match l with
    | [x; a; s] => do m <- members 0x30 x; do o <- alg_of a; do _ <- contents 0x03 s; Some (m, o)
    | _ => None
    end.
  Definition version_of (l : list der) : option (list der) :=
    match l with
    | t :: r => match members 0xA0 t with Some [Prim 2 v] => do _ <- read_u64 v; Some r | Some _ => None | None => Some l end
    | [] => None
    end.
  (** BigUint::to_bytes_be of the serial number: no leading zero octets, one for 0. *)
  Definition serial_bytes (c : bytes) : bytes := match be_min (be_val c) with [] => [0] | b => b end.

  (** [X509Certificate::from_der] and [parse_x509_cert], lib.rs:444-476. *)
  Definition view_certificate (t : der) : option shown :=
    do (m, sig) <- signed_parts t;
    do m <- version_of m;
    match m with
    | serial :: alg :: issuer :: validity :: subject :: key :: more =>
        do serial <- contents 0x02 serial;
        do _ <- alg_of alg;
        do _ <- guard (name_ok issuer && name_ok subject);
        do v <- validity_of validity;
        do pk <- key_alg_of key;
        do exts <- match more with
                   | [] => Some []
                   | [x] => do e <- read_one 0xA3 x; exts_of e
                   | _ => None
                   end;
        let '(tcbs, ueid, table) := view_exts exts in
        Some {| sh_is_csr := false; sh_subject := subject; sh_issuer := Some issuer;
                sh_serial := Some (serial_bytes serial); sh_sig_alg := sig; sh_validity := Some v; sh_key_alg := pk;
                sh_profile := infer_profile pk sig tcbs; sh_ueid := ueid; sh_tcbs := tcbs; sh_exts := table |}
    | _ => None
    end.

  (** The extensions of every extension request among the attributes (lib.rs:492-501);
      an attribute that is none, or does not parse, contributes nothing. *)
  Definition requested (t : der) : option (list (bytes * bool * bytes)) :=
    do l <- members 0x30 t;
    match l with
    | [o; vs] =>
        do o <- contents 0x06 o; do vs <- members 0x31 vs;
        if is_arcs id_extensionRequest o then
          match vs with e :: _ => match exts_of e with Some l => Some l | None => Some [] end | [] => Some [] end
        else Some []
    | _ => None
    end.
  (** [X509CertificationRequest::from_der] and [parse_csr], lib.rs:478-521. *)
  Definition view_csr (t : der) : option shown :=
    do (m, sig) <- signed_parts t;
    match m with
    | [v; subject; key; attrs] =>
        do v <- contents 0x02 v; do _ <- read_u64 v;
        do _ <- guard (name_ok subject);
        do pk <- key_alg_of key;
        do attrs <- members 0xA0 attrs;
        do exts <- all_some (map requested attrs);
        let '(tcbs, ueid, table) := view_exts (List.concat exts) in
        Some {| sh_is_csr := true; sh_subject := subject; sh_issuer := None; sh_serial := None; sh_sig_alg := sig;
                sh_validity := None; sh_key_alg := pk; sh_profile := infer_profile pk sig tcbs; sh_ueid := ueid;
                sh_tcbs := tcbs; sh_exts := table |}
    | _ => None
    end.

  (** ** Containers (lib.rs:527-566) *)

  (** SignerInfo of the cms crate. *)
  Definition signer_ok (t : der) : bool :=
    match members 0x30 t with
    | Some [Prim 2 _; sid; da; sa; Prim 4 _] =>
        match alg_of da, alg_of sa with
        | Some _, Some _ =>
            match sid with
            | Prim 0x80 _ => true
            | Cons 0x30 [n; Prim 2 _] => name_ok n
            | _ => false
            end
        | _, _ => false
        end
    | _ => false
    end.
  (** [ContentInfo::from_der], [decode_as::<SignedData>] and the content, lib.rs:534-540.
      Neither content type is compared with anything. *)
  Definition cms_content (b : bytes) : option bytes :=
    do t <- decode b;
    do l <- members 0x30 t;
    match l with
    | [Prim 6 _; c] =>
        do sd <- read_one 0xA0 c;
        do m <- members 0x30 sd;
        match m with
        | [Prim 2 _; das; ec; sis] =>
            do das <- members 0x31 das; do _ <- all_some (map alg_of das);
            do sis <- members 0x31 sis; do _ <- guard (forallb signer_ok sis);
            do em <- members 0x30 ec;
            match em with
            | [Prim 6 _; c] =>
                do v <- read_one 0xA0 c;
                match v with Prim _ b => Some b | Cons _ k => Some (List.concat (map enc k)) | _ => None end
            | _ => None
            end
        | _ => None
        end
    | _ => None
    end.
  Definition str_REPD : bytes := [0x52; 0x45; 0x50; 0x44].
  (** The size of the response header that is skipped, lib.rs:529-531. *)
  Definition skipped_header : nat := 128.
  Definition strip_header (b : bytes) : bytes :=
    if Nat.leb skipped_header (List.length b) && bytes_eqb (firstn 4 b) str_REPD then skipn skipped_header b else b.
  (** [unwrap_raw_bytes], lib.rs:527-543. *)
  Definition unwrap (b : bytes) : bytes :=
    let b := strip_header b in match cms_content b with Some c => c | None => b end.
  (** [FromDer]: the first value; bytes behind it are ignored. *)
  Definition first_value (b : bytes) : option der :=
    match parse (S (List.length b)) b with Some (t, _) => Some t | None => None end.
  Definition str_BEGIN : bytes := [45; 45; 45; 45; 45; 66; 69; 71; 73; 78].
  (** [parse_cert_bytes], lib.rs:545-566. *)
  Definition view (b : bytes) : option shown :=
    do raw <- (if bytes_eqb (firstn 10 b) str_BEGIN then pem b else Some b);
    do t <- first_value (unwrap raw);
    orelse (view_certificate t) (view_csr t).
End Viewer.

(** ** The graph (lib.rs:131-148, 568-683) *)

(** [hex_encode], lib.rs:123-129: two upper-case digits for each octet. *)
Definition hex_digit (n : N) : N := if N.ltb n 10 then 48 + n else 55 + n.
Definition hex_encode (b : bytes) : bytes := flat_map (fun x => [hex_digit (x / 16); hex_digit (x mod 16)]) b.
(** [format_tci_type], lib.rs:131-139: "0x" and the octets, and ('...') if all are
    printable. *)
Definition format_type (b : bytes) : bytes :=
  [48; 120] ++ hex_encode b ++
  if negb (Nat.eqb (List.length b) 0) && forallb (fun x => N.leb 0x20 x && N.leb x 0x7E) b
  then [32; 40; 39] ++ b ++ [39; 41] else [].
(** [format_bytes_brief], lib.rs:141-148. *)
Definition brief (b : bytes) (max : nat) : bytes :=
  let h := hex_encode b in if Nat.ltb max (List.length h) then firstn max h ++ [46; 46; 46] else h.
(** What stands in a node; [None]: "N/A". *)
Inductive node :=
| Tcb (root : bool) (ty : option bytes) (svn : option N) (digest : option bytes)
| Cert (is_csr : bool) (empty : bool) (subject : der) (issuer : option der).
(** [generate_mermaid_graph], lib.rs:568-683: nodes by number, and arrows. *)
Definition tcb_node (root : bool) (t : vtcb) : node :=
  Tcb root (option_map format_type (vt_type t)) (vt_svn t)
    (match vt_fwids t with f :: _ => Some (brief (vf_digest f) 16) | [] => None end).
Fixpoint tcb_graph (i : nat) (l : list vtcb) : list (nat * node) * list (nat * nat) :=
  match l with
  | [] => ([], [])
  | t :: r =>
      let '(ns, es) := tcb_graph (S i) r in
      ((i, tcb_node (Nat.eqb i 0) t) :: ns, (if Nat.ltb 0 i then [((i - 1)%nat, i)] else []) ++ es)
  end.
Definition graph (s : shown) : list (nat * node) * list (nat * nat) :=
  let '(ns, es) := tcb_graph 0 (sh_tcbs s) in
  let n := List.length (sh_tcbs s) in
  (ns ++ [(n, Cert (sh_is_csr s) (match sh_tcbs s with [] => true | _ => false end) (sh_subject s) (sh_issuer s))],
   es ++ if Nat.ltb 0 n then [((n - 1)%nat, n)] else []).
