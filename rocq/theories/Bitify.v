(** src/circuit/bitify.rs and src/circuit/mux.rs. Model only. *)

From Verif Require Export Circuit NumBits.

Section Bitify.
Context {p : positive}.
Notation F := (Num p).

(** Constant branch of c_into_bits_le, loop of lines 16-23. *)
Fixpoint const_bits_loop (is : list nat) (vb : list bool) (k rem : F) : res (F * list (CNum p)) :=
  match is with
  | [] => Ok (rem, [])
  | i :: is' =>
      bit <-? unwrap (nth_error vb i) ;
      let rem' := if bit then nsub rem k else rem in
      r <-? const_bits_loop is' vb (ndouble k) rem' ;
      Ok (fst r, cbconst bit :: snd r)
  end.

(** Witness branch, loop of lines 37-43. Bits are returned in order instead of
    being stored into a preallocated vector. *)
Fixpoint bits_loop (is : list nat) (vb : list (option bool)) (k : F) (rem : CNum p)
  : prog p (CNum p * list (CNum p)) :=
  match is with
  | [] => Ret (rem, [])
  | i :: is' =>
      let k' := ndouble k in
      ob <-- plift (unwrap (nth_error vb i)) ;;
      s <-- cballoc ob ;;
      cb_assert s ;;;
      r <-- bits_loop is' vb k' (csub rem (cmul_num s k')) ;;
      Ret (fst r, s :: snd r)
  end.

(** c_into_bits_le (bitify.rs:6-50). *)
Definition c_into_bits_le (signal : CNum p) (limit : nat) : prog p (list (CBool p)) :=
  match as_const signal with
  | Some value =>
      r <-- plift (const_bits_loop (seq 0 limit) (iterbit_le value) n1 value) ;;
      passert (nis_zero (fst r)) ;;;
      Ret (snd r)
  | None =>
      let vb := match cvalue signal with
                | Some v => map Some (iterbit_le v)
                | None => repeat None (num_bits p)
                end in
      r <-- bits_loop (seq 1 (limit - 1)) vb n1 signal ;;
      cassert_bit (fst r) ;;;
      (* bits[0] = remained_signal *)
      match limit with
      | O => PPanic
      | _ => Ret (fst r :: snd r)
      end
  end.

(** Loop of c_comp_constant (bitify.rs:73-90). *)
Fixpoint comp_loop (n : nat) (sig : list (CBool p)) (ct : list bool) (k : F) (acc : CNum p)
  : prog p (F * CNum p) :=
  match n with
  | O => Ret (k, acc)
  | S n' =>
      match ct, sig with
      | ct_l :: ct_u :: ct', sig_l :: sig_u :: sig' =>
          sig_lu <-- cmul sig_l sig_u ;;
          let t := match ct_l, ct_u with
                   | false, false => csub (cadd_cap sig_l sig_u) sig_lu
                   | true, false =>
                       csub_num (csub (cadd_rv sig_l (cmul_num sig_u (num 2))) sig_lu) n1
                   | false, true => csub_num (cadd sig_lu sig_u) n1
                   | true, true => csub_num sig_lu n1
                   end in
          comp_loop n' sig' ct' (ndouble k) (cadd_cap acc (cmul_num t k))
      | _, _ => PPanic
      end
  end.

(** c_comp_constant (bitify.rs:53-97). *)
Definition c_comp_constant (signal : list (CBool p)) (ct : F) : prog p (CBool p) :=
  let siglen := length signal in
  passert (Nat.ltb 0 siglen) ;;;
  let nsteps := (Nat.div2 siglen + Nat.modulo siglen 2)%nat in
  let sig_zero := if Nat.eqb (Nat.modulo siglen 2) 1 then [cbconst false] else [] in
  '(k, acc) <-- comp_loop nsteps (signal ++ sig_zero) (iterbit_le ct) n1 czero ;;
  let acc := cadd_num acc (nsub k n1) in
  acc_bits <-- c_into_bits_le acc (nsteps + 1) ;;
  plift (unwrap (nth_error acc_bits nsteps)).

(** c_into_bits_le_strict (bitify.rs:99-106). *)
Definition c_into_bits_le_strict (signal : CNum p) : prog p (list (CBool p)) :=
  bits <-- c_into_bits_le signal (num_bits p) ;;
  cmp_res <-- c_comp_constant bits (nneg n1) ;;
  cb_assert_false cmp_res ;;;
  Ret bits.

(** c_from_bits_le (bitify.rs:108-117). *)
Fixpoint from_bits_loop (bits : list (CBool p)) (k : F) (acc : CNum p) : CNum p :=
  match bits with
  | [] => acc
  | b :: bits' => let k' := ndouble k in from_bits_loop bits' k' (cadd acc (cmul_num b k'))
  end.
Definition c_from_bits_le (bits : list (CBool p)) : res (CNum p) :=
  match bits with
  | [] => Panic
  | b :: bits' => Ok (from_bits_loop bits' n1 b)
  end.

(** One column of c_mux3 (mux.rs:20-31). *)
Definition mux3_col (s0 s1 s2 s10 : CNum p) (c : list F) : prog p (CNum p) :=
  let g i := nth i c n0 in
  let a210 := cmul_num s10 (nsub (nadd (nadd (nsub (nadd (nsub (nsub (g 7%nat) (g 6%nat)) (g 5%nat)) (g 4%nat)) (g 3%nat)) (g 2%nat)) (g 1%nat)) (g 0%nat)) in
  let a21 := cmul_num s1 (nadd (nsub (nsub (g 6%nat) (g 4%nat)) (g 2%nat)) (g 0%nat)) in
  let a20 := cmul_num s0 (nadd (nsub (nsub (g 5%nat) (g 4%nat)) (g 1%nat)) (g 0%nat)) in
  let a2 := nsub (g 4%nat) (g 0%nat) in
  let a10 := cmul_num s10 (nadd (nsub (nsub (g 3%nat) (g 2%nat)) (g 1%nat)) (g 0%nat)) in
  let a1 := cmul_num s1 (nsub (g 2%nat) (g 0%nat)) in
  let a0 := cmul_num s0 (nsub (g 1%nat) (g 0%nat)) in
  let a := g 0%nat in
  t <-- cmul (cadd_num (cadd_cap (cadd_cap a210 a21) a20) a2) s2 ;;
  Ret (cadd_num (cadd_cap (cadd_cap (cadd_cap t a10) a1) a0) a).

(** c_mux3 (mux.rs:7-34). Indexing [c[i][j]] is in bounds after the checks. *)
Definition c_mux3 (s : list (CBool p)) (c : list (list F)) : prog p (list (CNum p)) :=
  match s with
  | [s0; s1; s2] =>
      passert (forallb (fun col => Nat.eqb (length col) 8) c) ;;;
      s10 <-- cmul s0 s1 ;;
      pmapM (mux3_col s0 s1 s2 s10) c
  | _ => PPanic
  end.
End Bitify.
