From Verif Require Import Base BaseLemmas Text InputMap InputMapSpec InputMapProofs.

(** C07: after any registrations with nonempty byte sequences, in any order, looking up
    any input runs without undefined behaviour or assertion failure, returns the key
    most recently registered for the longest registered sequence that starts the input,
    and says "incomplete" exactly if the whole input is a proper prefix of a registered
    sequence. *)
Theorem C07_longest_match : forall {E} regs input, regs_ok regs -> bytes input ->
  exists root n k incomplete, @set_all E empty_node regs = Ok root /\
    @lookupKey E root input = Ok (n, k, incomplete) /\
    longest_match regs input n k /\
    (incomplete = true <-> exists s k', In (s, k') regs /\ proper_prefix input s).
Proof. exact @lookup_correct. Qed.
Print Assumptions C07_longest_match.

(** Only the sequences and the last key registered for each matter, not the order nor
    the number of continuations. *)
Theorem C07_order_independent : forall {E} regs1 regs2 input, regs_ok regs1 -> regs_ok regs2 -> bytes input ->
  (forall s, assigned regs1 s = assigned regs2 s) ->
  exists r1 r2 ans, @set_all E empty_node regs1 = Ok r1 /\ @set_all E empty_node regs2 = Ok r2 /\
    @lookupKey E r1 input = Ok ans /\ @lookupKey E r2 input = Ok ans.
Proof. exact @lookup_order. Qed.
Print Assumptions C07_order_independent.

(** Concrete: twelve continuations of ESC '[' (so the node is converted to a branch),
    one of them extended further. *)
Definition ex_regs : list (list Z * Key) :=
  map (fun c => ([27; 91; c], mkKey c 0 0)) [72; 70; 65; 66; 67; 68; 69; 71; 80; 81; 82; 49]
  ++ [([27; 91; 49; 59; 50; 65], mkKey 65 0 16); ([27; 91; 65], mkKey 38 0 256)].
Example C07_ex :
  regs_ok ex_regs /\
  match @set_all unit empty_node ex_regs with
  | Ok r => @lookupKey unit r [27; 91; 49; 59; 50; 65; 27] = Ok (6, mkKey 65 0 16, false) /\
            @lookupKey unit r [27; 91; 49; 59; 50] = Ok (3, mkKey 49 0 0, true) /\
            @lookupKey unit r [27; 91; 49; 59; 51] = Ok (3, mkKey 49 0 0, false) /\
            @lookupKey unit r [27; 91; 65] = Ok (3, mkKey 38 0 256, false) /\
            @lookupKey unit r [27] = Ok (0, kKeyZero, true) /\ @lookupKey unit r [28] = Ok (0, kKeyZero, false)
  | _ => False
  end.
Proof.
  split; [|vm_compute; repeat split].
  apply Forall_forall. intros [s k] Hi. cbn in Hi. repeat destruct Hi as [Hi|Hi]; try contradiction; injection Hi as <- <-;
    (split; [discriminate|]; repeat constructor; discriminate).
Qed.
