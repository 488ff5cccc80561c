(** Der.v -- DER (ITU-T X.690) as an independent specification: length octets,
    non-negative INTEGERs, an encoder of trees of values and a strict decoder.
    Nothing here refers to the writer being verified. *)
From Verif Require Import Base.
Open Scope N_scope.

(** ** Length octets (X.690 8.1.3.3-8.1.3.5, 10.1) *)

(** The shortest big-endian octets of a number (none for 0). *)
Fixpoint le_digits (fuel : nat) (n : N) : bytes :=
  match fuel with
  | O => []
  | S f => if N.eqb n 0 then [] else N.modulo n 256 :: le_digits f (N.div n 256)
  end.
Definition be_min (n : N) : bytes := rev (le_digits (N.size_nat n) n).

(** Short form below 128, else the number of subsequent octets and the length
    itself without leading zero octets. *)
Definition der_len (n : N) : bytes :=
  if N.ltb n 128 then [n]
  else (128 + N.of_nat (length (be_min n))) :: be_min n.

(** The same as a relation, which is what a decoder may rely on. *)
Definition shortest_be (n : N) (ds : bytes) : Prop :=
  all_bytes ds /\ be_val ds = n /\ hd_error ds <> Some 0.
Inductive length_octets : N -> bytes -> Prop :=
| LenShort n : n < 128 -> length_octets n [n]
| LenLong n ds : 128 <= n -> shortest_be n ds -> (length ds <= 126)%nat ->
    length_octets n ((128 + N.of_nat (length ds)) :: ds).

(** ** INTEGER contents (X.690 8.3): two's complement, shortest form *)

(** Value of two's complement octets. *)
Definition signed_val (ds : bytes) : Z :=
  match ds with
  | [] => 0%Z
  | b :: _ =>
      if N.ltb b 128 then Z.of_N (be_val ds)
      else (Z.of_N (be_val ds) - Z.of_N (256 ^ N.of_nat (length ds)))%Z
  end.

(** X.690 8.3.2: the first nine bits are neither all ones nor all zeros. *)
Definition shortest_int (ds : bytes) : Prop :=
  match ds with
  | [] => False
  | b :: [] => True
  | b :: b' :: _ => ~ (b = 0 /\ b' < 128) /\ ~ (b = 255 /\ 128 <= b')
  end.
Definition int_octets (v : Z) (ds : bytes) : Prop :=
  all_bytes ds /\ signed_val ds = v /\ shortest_int ds.

(** The contents octets of a non-negative INTEGER. *)
Definition der_uint (v : N) : bytes :=
  match be_min v with
  | [] => [0]
  | b :: _ => if N.ltb b 128 then be_min v else 0 :: be_min v
  end.

(** ** Trees of values *)

(** [Prim]: primitive; [Cons]: constructed; [Wrap]: a primitive value (OCTET
    STRING, BIT STRING) whose contents are [pre] followed by encodings;
    [Opaque]: an encoding supplied from outside. *)
Inductive der :=
| Prim (tag : N) (content : bytes)
| Cons (tag : N) (kids : list der)
| Wrap (tag : N) (pre : bytes) (kids : list der)
| Opaque (b : bytes).

Section Enc.
  (** How lengths are written. *)
  Variable L : N -> bytes.
  Definition tlv (tag : N) (c : bytes) : bytes := tag :: L (N.of_nat (length c)) ++ c.
  Fixpoint enc_with (t : der) : bytes :=
    match t with
    | Prim tag c => tlv tag c
    | Cons tag ks => tlv tag (concat (map enc_with ks))
    | Wrap tag pre ks => tlv tag (pre ++ concat (map enc_with ks))
    | Opaque b => b
    end.
End Enc.
Definition enc : der -> bytes := enc_with der_len.

(** Forgetting that contents octets are themselves encodings. *)
Fixpoint flat (t : der) : der :=
  match t with
  | Prim tag c => Prim tag c
  | Cons tag ks => Cons tag (map flat ks)
  | Wrap tag pre ks => Prim tag (pre ++ concat (map enc ks))
  | Opaque b => Opaque b
  end.

(** Low-form tags (X.690 8.1.2) with the constructed bit as it must be, octets
    below 256, nothing opaque. *)
Definition prim_tag (tag : N) : Prop := tag < 256 /\ N.testbit tag 5 = false /\ N.modulo tag 32 <> 31.
Definition cons_tag (tag : N) : Prop := tag < 256 /\ N.testbit tag 5 = true /\ N.modulo tag 32 <> 31.
Fixpoint proper (t : der) : Prop :=
  match t with
  | Prim tag c => prim_tag tag /\ all_bytes c
  | Cons tag ks => cons_tag tag /\ (fix go l := match l with [] => True | x :: r => proper x /\ go r end) ks
  | Wrap tag pre ks =>
      prim_tag tag /\ all_bytes pre /\
      (fix go l := match l with [] => True | x :: r => proper x /\ go r end) ks
  | Opaque _ => False
  end.

(** ** A strict decoder *)

Definition parse_len (b : bytes) : option (N * bytes) :=
  match b with
  | [] => None
  | x :: r =>
      if N.ltb x 128 then Some (x, r)
      else
        let k := N.to_nat (x - 128) in
        let ds := firstn k r in
        if N.eqb x 128 || N.leb 255 x || Nat.ltb (length r) k
           || match ds with 0 :: _ => true | _ => false end
           || N.ltb (be_val ds) 128
        then None
        else Some (be_val ds, skipn k r)
  end.

Fixpoint parse (fuel : nat) (b : bytes) : option (der * bytes) :=
  match fuel with
  | O => None
  | S f =>
      match b with
      | [] => None
      | tag :: b1 =>
          if N.eqb (N.modulo tag 32) 31 then None
          else
            match parse_len b1 with
            | None => None
            | Some (n, b2) =>
                if N.ltb (N.of_nat (length b2)) n then None
                else
                  let c := firstn (N.to_nat n) b2 in
                  let rest := skipn (N.to_nat n) b2 in
                  if N.testbit tag 5 then
                    match
                      (fix all (g : nat) (c : bytes) : option (list der) :=
                         match c with
                         | [] => Some []
                         | _ =>
                             match g with
                             | O => None
                             | S g' =>
                                 match parse f c with
                                 | None => None
                                 | Some (t, r) =>
                                     match all g' r with None => None | Some ts => Some (t :: ts) end
                                 end
                             end
                         end) (length c) c
                    with
                    | None => None
                    | Some ks => Some (Cons tag ks, rest)
                    end
                  else Some (Prim tag c, rest)
            end
      end
  end.

(** [b] is the encoding of exactly one value. *)
Definition decodes (b : bytes) (t : der) : Prop := parse (S (length b)) b = Some (t, []).
