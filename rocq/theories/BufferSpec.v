(** Independent description of the wire format, and of which values are
    representable.  Uses only the value type from the model. *)
From Verif Require Import Base Buffer.

(** [bytes_le n x bs]: [bs] are [n] bytes, and read as a little-endian number
    they are congruent to [x] modulo 256^n. *)
Definition is_le (n : nat) (x : Z) (bs : list Z) : Prop :=
  length bs = n /\
  Forall (fun b => 0 <= b < 256) bs /\
  (fold_right (fun b acc => b + 256 * acc) 0 bs - x) mod 256 ^ (Z.of_nat n) = 0.

(** One field: a type byte, then the value. *)
Definition on_wire (v : val) (bs : list Z) : Prop :=
  match v with
  | VInt32 i => exists d, bs = 0 :: d /\ is_le 4 i d
  | VInt64 i => exists d, bs = 1 :: d /\ is_le 8 i d
  | VStr s => exists n ds, bs = 2 :: n ++ concat ds /\
                is_le 8 (Z.of_nat (length s)) n /\ Forall2 (is_le 2) s ds
  end.

Inductive fields_on_wire : list val -> list Z -> Prop :=
| fow_nil : fields_on_wire [] []
| fow_cons v bs vs bss : on_wire v bs -> fields_on_wire vs bss ->
    fields_on_wire (v :: vs) (bs ++ bss).

Definition representable (v : val) : Prop :=
  match v with
  | VInt32 i => - 2^31 <= i < 2^31
  | VInt64 i => - 2^63 <= i < 2^63
  | VStr s => Forall (fun u => 0 <= u < 2^16) s
  end.

(** Strings the receiving process can hold: its memory, and the 64-bit count. *)
Definition storable (pl : plat) (v : val) : Prop :=
  match v with
  | VStr s => zlen s <= p_alloc_limit pl
  | _ => True
  end.

(** Sensible platforms: 32- or 64-bit size_t; a wstring never holds more
    than SIZE_MAX/2 characters. *)
Definition plat_ok (pl : plat) : Prop :=
  (p_size_max pl = 2^32 - 1 \/ p_size_max pl = 2^64 - 1) /\
  0 <= p_alloc_limit pl <= p_size_max pl / 2.

Definition has_type (v : val) (t : ty) : Prop :=
  match v, t with
  | VInt32 _, TInt32 | VInt64 _, TInt64 | VStr _, TStr => True
  | _, _ => False
  end.

(** ** Message layouts, field by field *)

(** The requests the library can be asked to send. *)
Definition sendable (pl : plat) (rq : request) : Prop :=
  match rq with
  | RqStart r =>
      0 <= sr_flags r < 2^64 /\
      Forall (fun s => representable (VStr s) /\ storable pl (VStr s))
        [sr_appname r; sr_cmdline r; sr_cwd r; sr_env r; sr_desktop r]
  | RqSetSize c r => - 2^31 <= c < 2^31 /\ - 2^31 <= r < 2^31
  | RqProcessList => True
  | RqUnknown _ => False
  end.

(** Which messages mean which request.  Flags travel as a two's complement
    64-bit integer, booleans as a zero or non-zero integer; an unknown
    message type is reported whatever follows. *)
Definition means_request (rq : request) (payload : list Z) : Prop :=
  match rq with
  | RqStart r =>
      exists flags wp wt,
        fields_on_wire [VInt32 0; VInt64 flags; VInt32 wp; VInt32 wt; VStr (sr_appname r);
                        VStr (sr_cmdline r); VStr (sr_cwd r); VStr (sr_env r); VStr (sr_desktop r)]
                       payload /\
        sr_flags r = flags mod 2^64 /\
        (sr_want_process r = true <-> wp <> 0) /\ (sr_want_thread r = true <-> wt <> 0)
  | RqSetSize c r => fields_on_wire [VInt32 1; VInt32 c; VInt32 r] payload
  | RqProcessList => fields_on_wire [VInt32 2] payload
  | RqUnknown t => ~ (0 <= t <= 2) /\ exists w rest, payload = w ++ rest /\ on_wire (VInt32 t) w
  end.
