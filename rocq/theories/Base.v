(** Base.v -- byte strings, fixed-size buffers, little/big endian numbers and
    list update.  These are the Coq counterparts of the Rust primitives the
    modelled code uses ([u8] slices, [u8; N] arrays, u32::to_le_bytes, array
    assignment); nothing in this file is specific to the DPE. *)
From Coq Require Export List NArith ZArith Arith Bool Lia.
Export ListNotations.

(** A byte string.  Rust's [&[u8]] / [Vec<u8>] / [[u8; N]].  Elements are [N];
    values that come from the outside are reduced to 0..255 by [to_buf]. *)
Definition bytes := list N.

Definition is_byte (b : N) : Prop := (b < 256)%N.
Definition all_bytes (l : bytes) : Prop := Forall is_byte l.

(** Equality test on byte strings (Rust [==] on arrays; also
    [constant_time_eq_16], dpe/src/context.rs:207-217). *)
Fixpoint bytes_eqb (a b : bytes) : bool :=
  match a, b with
  | [], [] => true
  | x :: a', y :: b' => N.eqb x y && bytes_eqb a' b'
  | _, _ => false
  end.

(** Contents of an [n]-byte buffer after an external callee filled it: whatever
    it wrote, cut / zero-padded to exactly [n] bytes (the Rust type [u8; n]
    makes any other length impossible; the buffers passed are zero-initialised). *)
Definition to_buf (n : nat) (l : bytes) : bytes :=
  map (fun b => N.modulo b 256) (firstn n (l ++ repeat 0%N n)).

(** [n] little-endian bytes of [v] (u16/u32::to_le_bytes, and the in-memory
    layout produced by zerocopy's [as_bytes] on a little-endian target). *)
Fixpoint le_bytes (n : nat) (v : N) : bytes :=
  match n with
  | O => []
  | S n' => N.modulo v 256 :: le_bytes n' (N.div v 256)
  end.

(** Value of a little-endian byte string (u32::from_le_bytes). *)
Fixpoint le_val (l : bytes) : N :=
  match l with
  | [] => 0%N
  | b :: l' => (b + 256 * le_val l')%N
  end.

(** [n] big-endian bytes of [v] (u32::to_be_bytes). *)
Definition be_bytes (n : nat) (v : N) : bytes := rev (le_bytes n v).

(** Value of a big-endian byte string. *)
Definition be_val (l : bytes) : N := le_val (rev l).

(** Array assignment [l[i] = x] (no effect when out of range; every modelled
    use checks the range first and models the Rust panic explicitly). *)
Fixpoint upd {A} (l : list A) (i : nat) (x : A) : list A :=
  match l, i with
  | [], _ => []
  | _ :: l', O => x :: l'
  | a :: l', S i' => a :: upd l' i' x
  end.

(** [iter().enumerate()] *)
Definition enumerate {A} (l : list A) : list (nat * A) :=
  combine (seq 0 (length l)) l.
