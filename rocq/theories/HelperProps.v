(** C61: the helper agent reports the desktop it made and keeps it until the library lets go. *)
From Verif Require Import Base BaseLemmas Text Buffer BufferSpec NamedPipe NamedPipeSpec Rpc Open OpenSpec Helper HelperSpec HelperProofs.

(** Whatever the helper sends is the beginning of one packet, which tells the name of the
    desktop it made. *)
Theorem C61_report : forall pl os connects ins l r name,
  plat_ok pl -> representable (VStr name) -> storable pl (VStr name) -> zlen name < 2 ^ 31 ->
  can_make os = Some name -> handleCreateDesktop os connects ins = (l, r) ->
  exists packet, tells pl packet name /\ is_prefix (sent l) packet.
Proof. exact report. Qed.
Print Assumptions C61_report.

(** Without a desktop it sends nothing and ends, leaving nothing behind. *)
Theorem C61_no_desktop : forall os connects ins, can_make os = None ->
  exists l, handleCreateDesktop os connects ins = (l, Ok true) /\ sent l = [] /\ nothing_left l.
Proof. exact shape_none. Qed.
Print Assumptions C61_no_desktop.

(** The desktop exists before the first byte of the report goes out, ... *)
Theorem C61_exists_first : forall os connects ins l r l1 d l2,
  handleCreateDesktop os connects ins = (l, r) -> l = l1 ++ HSent d :: l2 -> desktop_exists l1.
Proof. exact alive. Qed.
Print Assumptions C61_exists_first.

(** ... and it is closed only after the other end of the pipe is gone. *)
Theorem C61_kept : forall os connects ins l r name l1 o l2,
  can_make os = Some name -> handleCreateDesktop os connects ins = (l, r) ->
  l = l1 ++ HD (EvClose o) :: l2 -> In HClosed l1 /\ Exists gone ins.
Proof. exact kept. Qed.
Print Assumptions C61_kept.

(** When the other end is gone the helper ends, with everything closed. *)
Theorem C61_ends : forall os ins l a rest name,
  can_make os = Some name -> Forall sound ins -> zlen (received ins) < 65536 -> full_writes a ->
  handleCreateDesktop os true ins = (l, Ok false) -> sv_read a = IoError :: rest ->
  exists l', handleCreateDesktop os true (ins ++ [HRound a]) = (l', Ok true).
Proof. exact ends. Qed.
Print Assumptions C61_ends.
Theorem C61_nothing_left : forall os connects ins l,
  handleCreateDesktop os connects ins = (l, Ok true) -> nothing_left l.
Proof. exact clean. Qed.
Print Assumptions C61_nothing_left.

(** No assertion fails as long as writes are whole and the library sends less than 64 KiB
    (it sends nothing); the event loop always has something to wait for. *)
Theorem C61_no_failure : forall os ins l r, Forall sound ins -> zlen (received ins) < 65536 ->
  handleCreateDesktop os true ins = (l, r) -> exists b, r = Ok b.
Proof. exact no_failure. Qed.
Print Assumptions C61_no_failure.

(** The whole report goes out once the pipe takes it, and the helper stays. *)
Theorem C61_goes_out : forall pl os svcs l r name,
  plat_ok pl -> representable (VStr name) -> storable pl (VStr name) -> zlen name < 2 ^ 31 -> can_make os = Some name ->
  Forall draining svcs -> 2 * zlen name + 17 <= zlen svcs -> handleCreateDesktop os true (map HRound svcs) = (l, r) ->
  r = Ok false /\ tells pl (sent l) name.
Proof. exact goes_out. Qed.
Print Assumptions C61_goes_out.

(** The library that reads this packet takes that desktop (C50). *)
Theorem C61_library_learns : forall os packet name d,
  tells (oo_plat os) packet name -> so_packet (oo_helper os) = Ok (skipn 8 packet) ->
  (helper_says os d <-> d = name).
Proof.
  intros os packet name d (_ & T) E. unfold helper_says. split.
  - intros (p & E1 & E2). rewrite E in E1. assert (p = skipn 8 packet) as -> by congruence. congruence.
  - intros ->. exists (skipn 8 packet). auto.
Qed.
Print Assumptions C61_library_learns.

(** The helper makes a desktop, reports it, and ends when the pipe breaks. *)
Definition quiet (r w : list io_ans) : svc := {| sv_conn := ConnDone; sv_read := r; sv_write := w; sv_kr := 0; sv_kw := 0 |}.
Example C61_holds_somewhere :
  let os := mkDO true true true true (Some (str "w\Default")) in
  let pl := {| p_size_max := 2 ^ 64 - 1; p_alloc_limit := 2 ^ 20 |} in
  can_make os = Some (str "w\Default") /\ draining (quiet [IoPending] [IoDone 0]) /\
  match handleCreateDesktop os true [HRound (quiet [IoPending] [IoDone 0])] with
  | (l, r) => r = Ok false /\ packet_size (sent l) = zlen (sent l) /\ parseDesktop pl (skipn 8 (sent l)) = Ok (RpDesktop (str "w\Default")) /\ desktop_exists l
  end /\
  match handleCreateDesktop os true [HRound (quiet [IoPending] [IoDone 0]); HRound (quiet [IoError] [])] with
  | (l, r) => r = Ok true /\ nothing_left l
  end.
Proof.
  cbv zeta. split; [reflexivity|]. split.
  { split; [exists []; reflexivity|]. cbn. intuition (try discriminate; auto). injection H0 as <-. discriminate. }
  split.
  - vm_compute. repeat split; reflexivity.
  - vm_compute. repeat split; reflexivity.
Qed.
