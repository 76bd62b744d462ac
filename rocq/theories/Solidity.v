(** Model of helpers/groth16/ethereum.rs: the Solidity verifier text.  Strings are
    byte lists; the template is the literal of ethereum.rs:7-196. *)

From Verif Require Export PointData.
From Coq Require Export String Ascii.
Open Scope Z_scope.

Definition codes (s : string) : list Z := map (fun c => Z.of_N (N_of_ascii c)) (list_ascii_of_string s).

(** is [pat] a prefix of [s] *)
Fixpoint starts (pat s : list Z) : bool :=
  match pat, s with
  | [], _ => true
  | _ :: _, [] => false
  | a :: p, b :: t => Z.eqb a b && starts p t
  end.
(** str::replace for a non-empty pattern: matches are found from the left and do not
    overlap.  [fuel] bounds the number of steps. *)
Fixpoint str_replace (fuel : nat) (pat to s : list Z) : list Z :=
  match fuel with
  | O => s
  | S f =>
    match s with
    | [] => []
    | c :: t => if starts pat s then to ++ str_replace f pat to (skipn (List.length pat) s) else c :: str_replace f pat to t
    end
  end.
Definition replace (pat : string) (to s : list Z) : list Z := str_replace (List.length s) (codes pat) to s.

(** usize::to_string *)
Definition usize_to_string (n : Z) : list Z := biguint_to_string n.

(** stringify_g1 (ethereum.rs:198-200) *)
Definition stringify_g1 (p : G1Data bn_q) : res (list Z) :=
  x <-? num_to_string (fst p) ; y <-? num_to_string (snd p) ; Ok (x ++ codes ", " ++ y).
(** stringify_g2 (ethereum.rs:202-211) *)
Definition stringify_g2 (p : G2Data bn_q) : res (list Z) :=
  a <-? num_to_string (fst (fst p)) ; b <-? num_to_string (snd (fst p)) ;
  c <-? num_to_string (fst (snd p)) ; d <-? num_to_string (snd (snd p)) ;
  Ok (codes "[" ++ a ++ codes ", " ++ b ++ codes "], [" ++ c ++ codes ", " ++ d ++ codes "]").

(** the loop over the ic points (ethereum.rs:221-230); [i] counts, [vi] is the text so far *)
Fixpoint ic_text (i : Z) (vi : list Z) (ic : list (G1Data bn_q)) : res (list Z) :=
  match ic with
  | [] => Ok vi
  | p :: t =>
    s <-? stringify_g1 p ;
    ic_text (i + 1) (vi ++ (match vi with [] => [] | _ => codes "        " end) ++ codes "vk.IC[" ++ usize_to_string i ++
      codes "] = Pairing.G1Point(" ++ s ++ codes ");" ++ [10]) t
  end.

(** usize subtraction: with overflow checks below 0 panics, without it wraps at 2^64 *)
Definition usize_sub (chk : bool) (a b : Z) : res Z :=
  if Z.leb b a then Ok (a - b) else if chk then Panic else Ok ((a - b) mod 2 ^ 64).

(** the template (ethereum.rs:7-196) *)
Definition template : list Z := codes
"pragma solidity ^0.6.0;

library Pairing {
    uint256 constant PRIME_Q = 21888242871839275222246405745257275088696311157297823662689037894645226208583;

    struct G1Point {
        uint256 X;
        uint256 Y;
    }

    // Encoding of field elements is: X[0] * z + X[1]
    struct G2Point {
        uint256[2] X;
        uint256[2] Y;
    }

    /*
        * @return The negation of p, i.e. p.plus(p.negate()) should be zero.
        */
    function negate(G1Point memory p) internal pure returns (G1Point memory) {
        // The prime q in the base field F_q for G1
        if (p.X == 0 && p.Y == 0) {
            return G1Point(0, 0);
        } else {
            return G1Point(p.X, PRIME_Q - (p.Y % PRIME_Q));
        }
    }

    /*
        * @return r the sum of two points of G1
        */
    function plus(
        G1Point memory p1,
        G1Point memory p2
    ) internal view returns (G1Point memory r) {
        uint256[4] memory input;
        input[0] = p1.X;
        input[1] = p1.Y;
        input[2] = p2.X;
        input[3] = p2.Y;
        bool success;

        // solium-disable-next-line security/no-inline-assembly
        assembly {
            success := staticcall(sub(gas(), 2000), 6, input, 0xc0, r, 0x60)
            // Use ""invalid"" to make gas estimation work
            switch success case 0 { invalid() }
        }

        require(success, ""pairing-add-failed"");
    }

    /*
        * @return r the product of a point on G1 and a scalar, i.e.
        *         p == p.scalar_mul(1) and p.plus(p) == p.scalar_mul(2) for all
        *         points p.
        */
    function scalar_mul(G1Point memory p, uint256 s) internal view returns (G1Point memory r) {
        uint256[3] memory input;
        input[0] = p.X;
        input[1] = p.Y;
        input[2] = s;
        bool success;
        // solium-disable-next-line security/no-inline-assembly
        assembly {
            success := staticcall(sub(gas(), 2000), 7, input, 0x80, r, 0x60)
            // Use ""invalid"" to make gas estimation work
            switch success case 0 { invalid() }
        }
        require(success, ""pairing-mul-failed"");
    }

    /* @return The result of computing the pairing check
        *         e(p1[0], p2[0]) *  .... * e(p1[n], p2[n]) == 1
        *         For example,
        *         pairing([P1(), P1().negate()], [P2(), P2()]) should return true.
        */
    function pairing(
        G1Point memory a1,
        G2Point memory a2,
        G1Point memory b1,
        G2Point memory b2,
        G1Point memory c1,
        G2Point memory c2,
        G1Point memory d1,
        G2Point memory d2
    ) internal view returns (bool) {
        G1Point[4] memory p1 = [a1, b1, c1, d1];
        G2Point[4] memory p2 = [a2, b2, c2, d2];

        uint256 inputSize = 24;
        uint256[] memory input = new uint256[](inputSize);

        for (uint256 i = 0; i < 4; i++) {
            uint256 j = i * 6;
            input[j + 0] = p1[i].X;
            input[j + 1] = p1[i].Y;
            input[j + 2] = p2[i].X[0];
            input[j + 3] = p2[i].X[1];
            input[j + 4] = p2[i].Y[0];
            input[j + 5] = p2[i].Y[1];
        }

        uint256[1] memory out;
        bool success;

        // solium-disable-next-line security/no-inline-assembly
        assembly {
            success := staticcall(sub(gas(), 2000), 8, add(input, 0x20), mul(inputSize, 0x20), out, 0x20)
            // Use ""invalid"" to make gas estimation work
            switch success case 0 { invalid() }
        }

        require(success, ""pairing-opcode-failed"");

        return out[0] != 0;
    }
}

contract Verifier {
    uint256 constant SNARK_SCALAR_FIELD = 21888242871839275222246405745257275088548364400416034343698204186575808495617;
    uint256 constant PRIME_Q = 21888242871839275222246405745257275088696311157297823662689037894645226208583;
    using Pairing for *;

    struct VerifyingKey {
        Pairing.G1Point alfa1;
        Pairing.G2Point beta2;
        Pairing.G2Point gamma2;
        Pairing.G2Point delta2;
        Pairing.G1Point[<%vk_ic_length%>] IC;
    }

    struct Proof {
        Pairing.G1Point A;
        Pairing.G2Point B;
        Pairing.G1Point C;
    }

    function verifyingKey() internal pure returns (VerifyingKey memory vk) {
        vk.alfa1 = Pairing.G1Point(<%vk_alfa1%>);
        vk.beta2 = Pairing.G2Point(<%vk_beta2%>);
        vk.gamma2 = Pairing.G2Point(<%vk_gamma2%>);
        vk.delta2 = Pairing.G2Point(<%vk_delta2%>);
        <%vk_ic_pts%>
    }

    /*
        * @returns Whether the proof is valid given the hardcoded verifying key
        *          above and the public inputs
        */
    function verifyProof(
        uint256[8] memory p,
        uint256[<%vk_input_length%>] memory input
    ) public view returns (bool) {
 
        // Make sure that each element in the proof is less than the prime q
        for (uint8 i = 0; i < p.length; i++) {
            require(p[i] < PRIME_Q, ""verifier-proof-element-gte-prime-q"");
        }

        Proof memory _proof;
        _proof.A = Pairing.G1Point(p[0], p[1]);
        _proof.B = Pairing.G2Point([p[2], p[3]], [p[4], p[5]]);
        _proof.C = Pairing.G1Point(p[6], p[7]);

        VerifyingKey memory vk = verifyingKey();

        // Compute the linear combination vk_x
        Pairing.G1Point memory vk_x = Pairing.G1Point(0, 0);
        vk_x = Pairing.plus(vk_x, vk.IC[0]);

        // Make sure that every input is less than the snark scalar field
        for (uint256 i = 0; i < input.length; i++) {
            require(input[i] < SNARK_SCALAR_FIELD, ""verifier-gte-snark-scalar-field"");
            vk_x = Pairing.plus(vk_x, Pairing.scalar_mul(vk.IC[i + 1], input[i]));
        }

        return Pairing.pairing(
            Pairing.negate(_proof.A),
            _proof.B,
            vk.alfa1,
            vk.beta2,
            vk_x,
            vk.gamma2,
            _proof.C,
            vk.delta2
        );
    }
}
".

(** generate_sol_data (ethereum.rs:5-233) *)
Definition generate_sol_data (chk : bool) (vk : VKData bn_q) : res (list Z) :=
  a <-? stringify_g1 (vd_alpha vk) ;
  let t := replace "<%vk_alfa1%>" a template in
  b <-? stringify_g2 (vd_beta vk) ;
  let t := replace "<%vk_beta2%>" b t in
  c <-? stringify_g2 (vd_gamma vk) ;
  let t := replace "<%vk_gamma2%>" c t in
  d <-? stringify_g2 (vd_delta vk) ;
  let t := replace "<%vk_delta2%>" d t in
  let n := Z.of_nat (List.length (vd_ic vk)) in
  let t := replace "<%vk_ic_length%>" (usize_to_string n) t in
  m <-? usize_sub chk n 1 ;
  let t := replace "<%vk_input_length%>" (usize_to_string m) t in
  vi <-? ic_text 0 [] (vd_ic vk) ;
  Ok (replace "<%vk_ic_pts%>" vi t).
