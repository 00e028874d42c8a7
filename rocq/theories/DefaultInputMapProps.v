From Verif Require Import Base Text InputMap InputMapSpec DefaultInputMap DefaultInputMapSpec DefaultInputMapProofs.

(** C08: building the table neither fails an assertion nor overruns its buffer, and no
    entry overwrites another with a different meaning. *)
Theorem C08_table_built_consistently : forall {E}, exists calls, @default_calls E = Ok calls /\
  @addDefaultEntriesToInputMap E empty_node = @set_all E empty_node calls /\
  exists root, @set_all E empty_node calls = Ok root /\
  (forall s k, In (s, k) calls -> assigned calls s = Some k /\ is_key k).
Proof. exact @default_built. Qed.
Print Assumptions C08_table_built_consistently.

(** Every documented encoding is recognised as its key and modifiers, whatever input
    follows it. *)
Theorem C08_documented_recognised : forall {E} s k rest, means_key s k -> bytes rest ->
  exists root, @addDefaultEntriesToInputMap E empty_node = Ok root /\
    @lookupKey E root (s ++ rest) = Ok (zlen s, k, false).
Proof. exact @default_recognised. Qed.
Print Assumptions C08_documented_recognised.

(** And nothing else is recognised. *)
Theorem C08_only_documented : forall {E} input, bytes input ->
  exists root n k inc, @addDefaultEntriesToInputMap E empty_node = Ok root /\
    @lookupKey E root input = Ok (n, k, inc) /\ 0 <= n <= zlen input /\ (0 < n -> means_key (zfirstn n input) k).
Proof. exact @default_only. Qed.
Print Assumptions C08_only_documented.

(** Concrete: xterm's Ctrl+Shift+Left, and rxvt's Alt+Ctrl+F12. *)
Example C08_ex : means_key (27 :: str "[1;6D") (mkKey 0x25 0 (256 + 16 + 8)) /\
  means_key (27 :: 27 :: str "[24^") (mkKey 0x7B 0 (2 + 8)).
Proof.
  split; [exists KLeft, (mkMods true false true)|exists (KF 12), (mkMods false true true)]; (split; [|reflexivity]).
  - apply nth_error_In with (n := 59%nat). vm_compute. reflexivity.
  - apply nth_error_In with (n := Z.to_nat 2391). vm_compute. reflexivity.
Qed.
