(** RespBuf.v -- the response-buffer crate (response-buffer/src/lib.rs) with
    bounded [usize] arithmetic.  [umax] is usize::MAX. *)
From Verif Require Import Base.
Open Scope N_scope.

(** response-buffer/src/lib.rs:45-57 [OffsetResponseBuffer] and 96-104
    [SliceResponseBuffer].  The borrowed [dyn ResponseBuffer] behind a view is
    part of the value, so views nest as in Rust.  Not modelled: other
    implementations of the trait (mailbox SRAM). *)
Inductive rbuf :=
| Slice (buf : bytes)
| View (base : N) (inner : rbuf).

Section Buf.
  Variable umax : N.

  (** usize::checked_add. *)
  Definition checked_add (a b : N) : option N :=
    if N.leb (a + b) umax then Some (a + b) else None.

  (** response-buffer/src/lib.rs:89-91, 132-134 [capacity]. *)
  Fixpoint capacity (r : rbuf) : N :=
    match r with
    | Slice b => N.of_nat (length b)
    | View base r' => capacity r' - base
    end.

  (** response-buffer/src/lib.rs:66-72, 112-121 [write_at].  [true]: Ok(());
      [false]: Err(Overflow).  The second component is the buffer afterwards. *)
  Fixpoint write_at (r : rbuf) (offset : N) (bs : bytes) : bool * rbuf :=
    match r with
    | Slice b =>
        match checked_add offset (N.of_nat (length bs)) with
        | None => (false, r)
        | Some e =>
            if N.leb e (N.of_nat (length b))
            then (true, Slice (firstn (N.to_nat offset) b ++ bs ++ skipn (N.to_nat e) b))
            else (false, r)
        end
    | View base r' =>
        match checked_add base offset with
        | None => (false, r)
        | Some o => let (ok, x) := write_at r' o bs in (ok, View base x)
        end
    end.

  (** response-buffer/src/lib.rs:74-87, 123-130 [read_range]: the bytes handed to
      the callback, [None] for Err(Overflow).  Simplified: the callback succeeds
      (its own error would be passed on unchanged). *)
  Fixpoint read_range (r : rbuf) (start stop : N) : option bytes :=
    match r with
    | Slice b =>
        if N.leb start stop && N.leb stop (N.of_nat (length b))
        then Some (firstn (N.to_nat (stop - start)) (skipn (N.to_nat start) b))
        else None
    | View base r' =>
        match checked_add base start, checked_add base stop with
        | Some a, Some b => read_range r' a b
        | _, _ => None
        end
    end.

  (** response-buffer/src/lib.rs:60-65: the loop of a view's [clear]; stops at
      the first failing write. *)
  Fixpoint clear_from (n : nat) (i : N) (r : rbuf) : bool * rbuf :=
    match n with
    | O => (true, r)
    | S n' =>
        match write_at r i [0] with
        | (true, r') => clear_from n' (i + 1) r'
        | (false, r') => (false, r')
        end
    end.

  (** response-buffer/src/lib.rs:60-65, 107-110 [clear]. *)
  Definition clear (r : rbuf) : bool * rbuf :=
    match r with
    | Slice b => (true, Slice (repeat 0 (length b)))
    | View _ _ => clear_from (N.to_nat (capacity r)) 0 r
    end.
End Buf.
