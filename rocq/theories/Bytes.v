(** Byte strings (lists of integers 0..255) and the readers and writers of the
    byteorder, ff and num-bigint crates used by native/num.rs and helpers/groth16. Model only. *)

From Verif Require Export NumBits.
Open Scope Z_scope.

Definition le_bytes (n : nat) (z : Z) : list Z := map (fun i => (z / 2 ^ (8 * Z.of_nat i)) mod 256) (seq 0 n).
Definition be_bytes (n : nat) (z : Z) : list Z := rev (le_bytes n z).
Definition be_val (bs : list Z) : Z := fold_left (fun a b => 256 * a + b) bs 0.
Definition le_val (bs : list Z) : Z := be_val (rev bs).
Definition byte (b : Z) : Prop := 0 <= b < 256.

(** Value of a repr (little-endian 64-bit limbs). *)
Fixpoint repr_val (t : list Z) : Z :=
  match t with [] => 0 | w :: t => w + 2 ^ 64 * repr_val t end.

(** [PrimeFieldRepr::write_be], [write_le] (ff_ce): limb by limb with byteorder. *)
Definition write_be (t : list Z) : list Z := concat (map (be_bytes 8) (rev t)).
Definition write_le (t : list Z) : list Z := concat (map (le_bytes 8) t).
(** Writing into a zeroed slice of [cap] bytes: an error when it does not fit. *)
Definition write_slice (bs : list Z) (cap : nat) : option (list Z) :=
  if Nat.leb (length bs) cap then Some (bs ++ repeat 0 (cap - length bs)) else None.

(** Reading [n] bytes from a slice; the rest stays in the reader. *)
Definition take_bytes (n : nat) (buf : list Z) : option (list Z * list Z) :=
  if Nat.leb n (length buf) then Some (firstn n buf, skipn n buf) else None.
(** [read_le]: limbs least significant first. *)
Fixpoint read_le (n : nat) (buf : list Z) : option (list Z * list Z) :=
  match n with
  | O => Some ([], buf)
  | S n =>
      match take_bytes 8 buf with
      | None => None
      | Some (w, buf) =>
          match read_le n buf with None => None | Some (ws, buf) => Some (le_val w :: ws, buf) end
      end
  end.
(** [read_be]: limbs most significant first. *)
Fixpoint read_be_acc (n : nat) (acc : list Z) (buf : list Z) : option (list Z * list Z) :=
  match n with
  | O => Some (acc, buf)
  | S n =>
      match take_bytes 8 buf with
      | None => None
      | Some (w, buf) => read_be_acc n (be_val w :: acc) buf
      end
  end.
Definition read_be (n : nat) (buf : list Z) : option (list Z * list Z) := read_be_acc n [] buf.

(** [BigUint::to_bytes_be] (num-bigint 0.2): no leading zero byte, [0] for zero. *)
Definition biguint_len (z : Z) : nat := Z.to_nat (Z.log2 z / 8 + 1).
Definition biguint_bytes_be (z : Z) : list Z := be_bytes (biguint_len z) z.

(** Decimal printing and parsing. Characters are code points. *)
Fixpoint dec_digits (fuel : nat) (z : Z) (acc : list Z) : list Z :=
  match fuel with
  | O => acc
  | S fuel =>
      let acc := (48 + z mod 10) :: acc in
      if z <? 10 then acc else dec_digits fuel (z / 10) acc
  end.
(** [BigUint::to_string] *)
Definition biguint_to_string (z : Z) : list Z := dec_digits (S (Z.to_nat (Z.log2 z))) z [].

(** [BigUint::from_str] = from_str_radix(s, 10) (num-bigint 0.2): one leading '+'
    is dropped unless another follows; empty and leading '_' are errors; '_' is
    skipped; every other byte must be a decimal digit. *)
Fixpoint dec_parse (s : list Z) (acc : Z) : option Z :=
  match s with
  | [] => Some acc
  | c :: s =>
      if (48 <=? c) && (c <=? 57) then dec_parse s (10 * acc + (c - 48))
      else if c =? 95 then dec_parse s acc else None
  end.
Definition biguint_from_str (s : list Z) : option Z :=
  let s := match s with
           | c :: t => if (c =? 43) && negb (match t with c' :: _ => c' =? 43 | [] => false end) then t else s
           | [] => s
           end in
  match s with
  | [] => None
  | c :: _ => if c =? 95 then None else dec_parse s 0
  end.
