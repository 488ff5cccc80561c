(** Spec.v -- the vocabulary in which the properties are stated.  Everything
    here is declarative: it mentions the contents of the DPE state and plain
    list/number functions of the standard library, never the functions of the
    executable model. *)
From Verif Require Import Base Errors Types Env.
Local Open Scope nat_scope.

(** Slot [i] of the state holds [c]. *)
Definition at_slot (s : state) (i : nat) (c : context) : Prop :=
  nth_error (st_contexts s) i = Some c.

(** A slot that is in use: an active or a retired context. *)
Definition live (c : context) : Prop := c_state c <> Inactive.
Definition live_at (s : state) (i : nat) : Prop := exists c, at_slot s i c /\ live c.

(** Slot [i] is what the caller at locality [loc] may call [h]. *)
Definition names (s : state) (h : bytes) (loc : N) (i : nat) : Prop :=
  exists c, at_slot s i c /\ c_state c = Active /\ c_locality c = loc /\ c_handle c = h.

(** The first slot with a property. *)
Definition first_slot (Q : nat -> Prop) (i : nat) : Prop :=
  Q i /\ forall j, j < i -> ~ Q j.

(** Bit [i] of a child bitmap. *)
Definition has_bit (ch : N) (i : nat) : Prop := N.testbit ch (N.of_nat i) = true.

(** The live context in slot [i] names slot [p] as its parent. *)
Definition child_of (s : state) (p i : nat) : Prop :=
  exists c, at_slot s i c /\ live c /\ c_parent c = p.

(** [path s i l]: following parent links from slot [i] visits exactly the live
    slots [l] (leaf first) and ends at a root. *)
Inductive path (s : state) : nat -> list nat -> Prop :=
| path_root i c : at_slot s i c -> live c -> c_parent c = ROOT -> path s i [i]
| path_step i c l : at_slot s i c -> live c -> c_parent c <> ROOT ->
                    path s (c_parent c) l -> path s i (i :: l).

(** [below s a i]: slot [a] is slot [i] or one of its ancestors. *)
Definition below (s : state) (a i : nat) : Prop := exists l, path s i l /\ In a l.

(** The contexts that disappear when [t] is destroyed: the target, everything
    derived from it, and every retired context all of whose children
    disappear. *)
Inductive doomed (s : state) (t : nat) : nat -> Prop :=
| doomed_target : doomed s t t
| doomed_child p i : doomed s t p -> child_of s p i -> doomed s t i
| doomed_retired i c k :
    at_slot s i c -> c_state c = Retired -> child_of s i k ->
    (forall j, child_of s i j -> doomed s t j) -> doomed s t i.

(** All fields of two states except the contexts agree. *)
Definition same_globals (s s' : state) : Prop :=
  st_marker s' = st_marker s /\ st_version s' = st_version s /\
  st_support s' = st_support s /\ st_flags s' = st_flags s /\
  st_init s' = st_init s /\ st_reserved s' = st_reserved s.

(** Two contexts that agree on everything but the handle. *)
Definition same_but_handle (c c' : context) : Prop :=
  c_tci c' = c_tci c /\ c_children c' = c_children c /\
  c_locality c' = c_locality c /\ c_parent c' = c_parent c /\
  c_type c' = c_type c /\ c_state c' = c_state c /\ c_info c' = c_info c /\
  c_dice c' = c_dice c /\ c_x509 c' = c_x509 c /\ c_export c' = c_export c /\
  c_recursive c' = c_recursive c.

(** A handle no context of the state carries, and not the default one. *)
Definition fresh_handle (s : state) (h : bytes) : Prop :=
  h <> repeat 0%N 16 /\ length h = 16 /\
  forall i c, at_slot s i c -> c_handle c <> h.

(** The byte string [b] with [d] written at offset [o]. *)
Definition overwrite (b : bytes) (o : nat) (d : bytes) : bytes :=
  firstn o b ++ d ++ skipn (o + length d) b.

(** Forest integrity. *)
Record forest (cf : config) (s : state) : Prop := {
  fo_size : length (st_contexts s) = max_handles cf;
  (** every live non-root context is recorded by its live parent *)
  fo_up : forall i c, at_slot s i c -> live c -> c_parent c <> ROOT ->
          exists p, at_slot s (c_parent c) p /\ live p /\ has_bit (c_children p) i;
  (** every recorded child exists, is live and points back *)
  fo_down : forall i c j, at_slot s i c -> has_bit (c_children c) j ->
            live c /\ child_of s i j;
  (** no cycles: every parent chain ends at a root *)
  fo_acyclic : forall i, live_at s i -> exists l, path s i l;
  (** unused slots point nowhere *)
  fo_inactive : forall i c, at_slot s i c -> c_state c = Inactive -> c_parent c = ROOT;
  (** a retired context still has a child *)
  fo_retired : forall i c, at_slot s i c -> c_state c = Retired ->
               exists j, has_bit (c_children c) j
}.

(** Two contexts that agree on everything but the child bitmap. *)
Definition same_but_children (c c' : context) : Prop :=
  c_handle c' = c_handle c /\ c_tci c' = c_tci c /\
  c_locality c' = c_locality c /\ c_parent c' = c_parent c /\
  c_type c' = c_type c /\ c_state c' = c_state c /\ c_info c' = c_info c /\
  c_dice c' = c_dice c /\ c_x509 c' = c_x509 c /\ c_export c' = c_export c /\
  c_recursive c' = c_recursive c.

(** An unused slot without any leftovers of its former content (the context
    type and the export permission are the only fields that may be stale). *)
Definition blank (cf : config) (c : context) : Prop :=
  c_state c = Inactive /\
  c_tci c = mkTci 0 (repeat 0%N (tci_size cf)) (repeat 0%N (tci_size cf)) 0 0 /\
  c_children c = 0%N /\ c_locality c = 0%N /\ c_parent c = ROOT /\
  c_info c = false /\ c_dice c = false /\ c_x509 c = false /\ c_recursive c = false.

(** [s'] is [s] after the set [D] of slots was removed. *)
Definition pruned (cf : config) (s : state) (D : nat -> Prop) (s' : state) : Prop :=
  same_globals s s' /\
  length (st_contexts s') = length (st_contexts s) /\
  forall i c, at_slot s i c -> exists c', at_slot s' i c' /\
    (D i -> blank cf c' /\ c_handle c' = repeat 255%N 16 /\
            c_type c' = c_type c /\ c_export c' = c_export c) /\
    (~ D i -> same_but_children c c' /\
              forall j, has_bit (c_children c') j <-> has_bit (c_children c) j /\ ~ D j).

(** A random source that never hands out the same 16-byte value twice: some
    record [drawn] of the values already handed out grows with every call and
    never contains the next value.  (Values are cut or zero-extended to the
    requested size, as the fixed-size buffers of the code are.) *)
Definition no_repeat {C : Type} (co : crypto_ops C) : Prop :=
  exists drawn : C -> bytes -> Prop,
    forall c r c', co_rand_bytes co 16 c = (r, c') ->
      (forall v, drawn c v -> drawn c' v) /\
      (forall b, r = inl b -> ~ drawn c (to_buf 16 b) /\ drawn c' (to_buf 16 b)).

(** Feature bits of the support mask (dpe/src/support.rs:10-23). *)
Definition supports (s : state) (i : N) : Prop := N.testbit (st_support s) i = true.
Definition SIMULATION : N := 31.
Definition RECURSIVE : N := 30.
Definition AUTO_INIT : N := 29.
Definition ROTATE_CONTEXT : N := 27.
Definition X509 : N := 26.
Definition CSR : N := 25.
Definition INTERNAL_INFO : N := 22.
Definition INTERNAL_DICE : N := 21.
Definition RETAIN_PARENT_CONTEXT : N := 19.
Definition CDI_EXPORT : N := 18.

(** 32-bit words and fixed-size byte arrays. *)
Definition u32 (n : N) : Prop := (n < 2 ^ 32)%N.
Definition byte_string (n : nat) (b : bytes) : Prop := length b = n /\ all_bytes b.

(** What holds of the contents of each slot. *)
Record slot_ok (cf : config) (s : state) (c : context) : Prop := {
  so_handle : byte_string 16 (c_handle c);
  so_cumulative : byte_string (tci_size cf) (tci_cumulative (c_tci c));
  so_current : byte_string (tci_size cf) (tci_current (c_tci c));
  so_type : u32 (tci_type (c_tci c));
  so_locality : u32 (c_locality c);
  so_svn : u32 (tci_svn (c_tci c));
  (** the measured locality is the owning locality *)
  so_tci_locality : tci_locality (c_tci c) = c_locality c;
  (** free slots carry no leftovers *)
  so_free : c_state c = Inactive -> blank cf c;
  (** retired contexts have no usable handle *)
  so_retired : c_state c = Retired -> c_handle c = repeat 255%N 16;
  (** only supported features are in use *)
  so_simulation : c_type c = Simulation -> supports s SIMULATION;
  so_info : c_info c = true -> supports s INTERNAL_INFO;
  so_dice : c_dice c = true -> supports s INTERNAL_DICE;
  so_x509 : c_x509 c = true -> c_parent c <> ROOT -> supports s X509
}.

(** [c] may do nothing its parent [p] may not, and is of the same type. *)
Definition inherits (p c : context) : Prop :=
  c_type c = c_type p /\
  (c_x509 c = true -> c_x509 p = true) /\
  (c_export c = true -> c_export p = true) /\
  (c_recursive c = true -> c_recursive p = true).

(** Well-formed DPE states. *)
Record wf (cf : config) (s : state) : Prop := {
  wf_forest : forest cf s;
  wf_marker : st_marker s = 0x44504553%N;
  wf_version : st_version s = 1%N;
  wf_slot : forall i c, at_slot s i c -> slot_ok cf s c;
  wf_inherits : forall i c p pc, at_slot s i c -> live c -> c_parent c = p -> at_slot s p pc ->
                inherits pc c;
  wf_siblings : forall i j c d, at_slot s i c -> at_slot s j d -> live c -> live d ->
                c_parent c = c_parent d -> c_parent c <> ROOT ->
                tci_type (c_tci c) = tci_type (c_tci d) -> i = j;
  wf_one_normal_root : forall i j c d, at_slot s i c -> at_slot s j d -> live c -> live d ->
                c_parent c = ROOT -> c_parent d = ROOT ->
                c_type c = Normal -> c_type d = Normal -> i = j;
  wf_initialized : forall i c, at_slot s i c -> live c -> c_type c = Normal -> st_init s = true
}.

(** What never changes about a context while it stays in use: its place in the
    tree, its owner, its type, its permissions and the fixed part of its
    measurement record. *)
Definition same_identity (c c' : context) : Prop :=
  c_parent c' = c_parent c /\ c_type c' = c_type c /\ c_locality c' = c_locality c /\
  c_info c' = c_info c /\ c_dice c' = c_dice c /\ c_x509 c' = c_x509 c /\
  c_export c' = c_export c /\ c_recursive c' = c_recursive c /\
  tci_type (c_tci c') = tci_type (c_tci c) /\ tci_svn (c_tci c') = tci_svn (c_tci c) /\
  tci_locality (c_tci c') = tci_locality (c_tci c).

(** A slot that is not in use. *)
Definition free_at (s : state) (i : nat) : Prop :=
  exists c, at_slot s i c /\ c_state c = Inactive.

(** Only the slots in [Q] differ, and nothing but slots differs. *)
Definition only_slots (Q : nat -> Prop) (s s' : state) : Prop :=
  same_globals s s' /\ length (st_contexts s') = length (st_contexts s) /\
  forall j, ~ Q j -> nth_error (st_contexts s') j = nth_error (st_contexts s) j.

(** [h'] is what [c]'s handle becomes when it is used: a default handle stays,
    any other is replaced by one that is not in use. *)
Definition refreshed (s : state) (c : context) (h' : bytes) : Prop :=
  (c_handle c = repeat 0%N 16 /\ h' = repeat 0%N 16) \/
  (c_handle c <> repeat 0%N 16 /\ fresh_handle s h').

(** The hasher of the back end, fed the strings [l] in order, answered [d]. *)
Inductive absorbs {C : Type} (co : crypto_ops C) : C -> list bytes -> C -> Prop :=
| absorbs_nil c : absorbs co c [] c
| absorbs_cons c b l c1 c2 :
    co_hash_update co b c = (inl tt, c1) -> absorbs co c1 l c2 -> absorbs co c (b :: l) c2.
Definition hash_of {C : Type} (co : crypto_ops C) (l : list bytes) (d : bytes) : Prop :=
  exists c c0 c1 c2 c3 dg,
    co_hasher co c = (inl tt, c0) /\ co_hash_initialize co c0 = (inl tt, c1) /\
    absorbs co c1 l c2 /\ co_hash_finish co c2 = (inl dg, c3) /\ d = digest_bytes dg.

(** [c] became [c'] by extending its measurements with [m]: only the current and
    cumulative digests (and perhaps the handle) differ. *)
Definition extended {C : Type} (cf : config) (co : crypto_ops C) (m : bytes) (c c' : context) : Prop :=
  same_identity c c' /\ c_state c' = c_state c /\ c_children c' = c_children c /\
  tci_current (c_tci c') = m /\
  hash_of co [tci_cumulative (c_tci c); m] (tci_cumulative (c_tci c')) /\
  length (tci_cumulative (c_tci c')) = tci_size cf.

(** Number of slots in use. *)
Definition is_live (c : context) : bool :=
  match c_state c with Inactive => false | _ => true end.
Definition live_count (s : state) : nat := length (filter is_live (st_contexts s)).

(** The slots of a set, counted: [n] of the first [m] numbers have the property. *)
Inductive count_of (Q : nat -> Prop) : nat -> nat -> Prop :=
| co_zero : count_of Q 0 0
| co_in m n : Q m -> count_of Q m n -> count_of Q (S m) (S n)
| co_out m n : ~ Q m -> count_of Q m n -> count_of Q (S m) n.
