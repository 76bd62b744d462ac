(** The command line of the bindings: the options of clap with their default values,
    and cli_main (src/macros.rs:248-327 and 432-441 in groth16_ethereum_bindings;
    518-572 and 671-679, 756-810 and 909-917, 996-1050 and 1146-1154 in the bindings
    for waves, waves on bn256 and near). Model only.

    Simplified: splitting the argument vector into a subcommand and its options is
    clap's and is dropped. An option is [Some] of the name given, or [None]. *)

From Verif Require Export Bindings.
Open Scope Z_scope.

(** The four macros (macros.rs:224, 494, 732, 972) *)
Inductive binding := Ethereum | Waves | WavesBn256 | Near.

(** SubCommand and the structs of options (macros.rs:255-327; 513-572, 751-810 and
    991-1050 without GenerateVerifier) *)
Inductive command :=
| CProve (params object proof inputs : option path)
| CVerify (vk proof inputs : option path)
| CSetup (params vk : option path)
| CGenerateVerifier (vk solidity : option path)
| CGenerateTestData (object : option path).

(** clap's default_value *)
Definition or_default (o : option path) (s : string) : path := match o with Some f => f | None => codes s end.
(** default_value of params (macros.rs:273, 304; 529, 560; 767, 798; 1007, 1038) *)
Definition opt_params (o : option path) : path := or_default o "params.bin".
(** default_value of object (macros.rs:276, 325; 532, 570; 770, 808; 1010, 1048) *)
Definition opt_object (o : option path) : path := or_default o "object.json".
(** default_value of proof (macros.rs:279, 293; 535, 549; 773, 787; 1013, 1027) *)
Definition opt_proof (b : binding) (o : option path) : path :=
  or_default o (match b with Ethereum => "proof.json" | _ => "proof.txt" end).
(** default_value of inputs (macros.rs:282, 296; 538, 552; 776, 790; 1016, 1030) *)
Definition opt_inputs (b : binding) (o : option path) : path :=
  or_default o (match b with Ethereum => "inputs.json" | _ => "inputs.txt" end).
(** default_value of vk (macros.rs:290, 307, 315; 546, 563; 784, 801; 1024, 1041) *)
Definition opt_vk (b : binding) (o : option path) : path :=
  or_default o (match b with Ethereum => "verification_key.json" | _ => "verification_key.txt" end).
(** default_value of solidity (macros.rs:318) *)
Definition opt_solidity (o : option path) : path := or_default o "verifier.sol".

(** cli_setup writes the parameters first in ethereum (macros.rs:361-369) and the key
    first in the others (macros.rs:606-616, 844-854, 1084-1092). *)
Definition params_first (b : binding) : bool := match b with Ethereum => true | _ => false end.

Section CommandLine.
Context {E : Engine} {p : positive} (B : Bellman E p) (Fm : Format (eG1 E) (eG2 E) p).
Context {A : Type} (tp ts : sty) (main : sig p tp -> sig p ts -> prog p A).
Context (obj_print : val p tp * val p ts -> list Z) (obj_parse : list Z -> option (val p tp * val p ts)).
(** the user's test data; serde_json and the choices of cli_generate_verifier *)
Context (test_data : val p tp * val p ts) (SJ : SerdeJson) (chk : bool) (n : nat).

(** cli_main (macros.rs:432-441, 671-679, 909-917, 1146-1154): the files afterwards,
    and what verify printed. clap ends the program for a subcommand it does not know. *)
Definition cli_main (b : binding) (c : command) (r : rnd) (d : files) : res (files * option bool) :=
  match c with
  | CProve a o f i =>
      d' <-? cli_prove B Fm tp ts main obj_parse (opt_params a) (opt_object o) (opt_proof b f) (opt_inputs b i) r d ; Ok (d', None)
  | CVerify v f i => x <-? cli_verify (E := E) Fm (opt_vk b v) (opt_proof b f) (opt_inputs b i) d ; Ok (d, Some x)
  | CSetup a v => d' <-? cli_setup B Fm tp ts main (params_first b) (opt_params a) (opt_vk b v) r d ; Ok (d', None)
  | CGenerateVerifier v s =>
      match b with
      | Ethereum => d' <-? cli_generate_verifier SJ chk n (opt_vk b v) (opt_solidity s) d ; Ok (d', None)
      | _ => Panic
      end
  | CGenerateTestData o => Ok (cli_generate_test_data tp ts obj_print test_data (opt_object o) d, None)
  end.

(** The program run several times in one directory. A run that ends with a panic ends
    the session. *)
Fixpoint cli_session (b : binding) (cs : list (command * rnd)) (d : files) : res (files * list bool) :=
  match cs with
  | [] => Ok (d, [])
  | (c, r) :: cs => x <-? cli_main b c r d ; y <-? cli_session b cs (fst x) ;
      Ok (fst y, match snd x with Some a => a :: snd y | None => snd y end)
  end.
End CommandLine.
