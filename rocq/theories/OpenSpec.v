From Verif Require Import Base Text Buffer Rpc Open.

(** A flag word using no bit but the lowest [n]. *)
Definition only_bits (n flags : Z) : Prop := forall i, Z.testbit flags i = true -> i < n.

(** Calls on a configuration. *)
Inductive cfg_op := SetSize (cols rows : Z) | SetMouse (m : Z) | SetTimeout (t : Z).
Definition cfg_do (c : config) (o : cfg_op) : res unit config :=
  match o with
  | SetSize w h => set_initial_size c w h
  | SetMouse m => set_mouse_mode c m
  | SetTimeout t => set_agent_timeout c t
  end.
Fixpoint configure (c : config) (os : list cfg_op) : res unit config :=
  match os with [] => Ok c | o :: t => let! c := cfg_do c o in configure c t end.
(** Documented arguments. *)
Definition documented (o : cfg_op) : Prop :=
  match o with
  | SetSize w h => 1 <= w /\ 1 <= h
  | SetMouse m => m = 0 \/ m = 1 \/ m = 2
  | SetTimeout t => 1 <= t
  end.
(** Arguments are C ints and DWORDs. *)
Definition int_args (o : cfg_op) : Prop :=
  match o with
  | SetSize w h => - 2 ^ 31 <= w < 2 ^ 31 /\ - 2 ^ 31 <= h < 2 ^ 31
  | SetMouse m => - 2 ^ 31 <= m < 2 ^ 31
  | SetTimeout t => 0 <= t < 2 ^ 32
  end.

(** The pipe's client is the process started, as far as the system can tell. *)
Definition authentic (os : sess_os) : Prop :=
  match so_client os with
  | ClPid pid => so_pid os = Some pid
  | ClUnsupported => True
  | ClFailed => False
  end.

(** Does this call use a helper agent? *)
Definition uses_helper (l : list ev) : Prop := exists cmd d, In (EvStart Helper cmd d) l.
(** Data read from the pipe of a session. *)
Definition reads (w : which) (l : list ev) : Prop := In (EvRead w) l.

(** Numbers the system supplies. *)
Definition sess_ok (os : sess_os) : Prop :=
  0 <= so_time os < 2 ^ 64 /\
  match so_rnd os with Some b => Forall (fun x => 0 <= x < 256) b | None => True end.
Definition os_ok (os : open_os) : Prop :=
  0 <= oo_pid os < 2 ^ 32 /\ sess_ok (oo_main os) /\ sess_ok (oo_helper os) /\
  ~ In 34 (oo_exe os).     (* a Windows path contains no quotation mark *)

(** UTF-8 conversion leaves ASCII text alone. *)
Definition ascii_id (utf8 : list Z -> list Z) : Prop :=
  forall s, Forall (fun c => 0 < c < 128) s -> utf8 s = s.

(** Objects open after a log: an object is only closed while open. *)
Definition obj_eqb (a b : obj) : bool :=
  match a, b with
  | OEvent Main, OEvent Main | OEvent Helper, OEvent Helper => true
  | OPipe Main, OPipe Main | OPipe Helper, OPipe Helper => true
  | OProcess Main, OProcess Main | OProcess Helper, OProcess Helper => true
  | OThread Main, OThread Main | OThread Helper, OThread Helper => true
  | ODesktop, ODesktop | OStation, OStation => true
  | _, _ => false
  end.
Fixpoint remove_obj (o : obj) (l : list obj) : option (list obj) :=
  match l with
  | [] => None
  | x :: t => if obj_eqb x o then Some t else match remove_obj o t with Some t' => Some (x :: t') | None => None end
  end.
Fixpoint live (l : list ev) (open : list obj) : option (list obj) :=
  match l with
  | [] => Some open
  | EvOpen o :: t => live t (o :: open)
  | EvClose o :: t => match remove_obj o open with Some open => live t open | None => None end
  | _ :: t => live t open
  end.
(** The process is on its own window station after a log. *)
Fixpoint on_background (l : list ev) (b : bool) : bool :=
  match l with [] => b | EvStation x :: t => on_background t x | _ :: t => on_background t b end.

(** Everything about starting this agent works, its identity aside. *)
Definition starts_well (os : sess_os) : Prop :=
  so_event os = true /\ so_sd os = true /\ so_pipe os = true /\ so_exe os = true /\ so_pid os <> None /\
  match so_connect os with
  | Now ok err _ | Pend WIo ok err _ => ok = true \/ err = 535       (* ERROR_PIPE_CONNECTED *)
  | _ => False
  end.

(** The value a sequence of setter calls leaves: that of the last call, else [d]. *)
Definition last_set {A} (get : cfg_op -> option A) (ops : list cfg_op) (d : A) : A :=
  fold_left (fun acc o => match get o with Some x => x | None => acc end) ops d.
Definition size_of (o : cfg_op) := match o with SetSize w h => Some (w, h) | _ => None end.
Definition mouse_of (o : cfg_op) := match o with SetMouse m => Some m | _ => None end.
Definition timeout_of (o : cfg_op) := match o with SetTimeout t => Some t | _ => None end.

(** ** Background desktops (C50) *)

(** What the debug settings say about background desktops: force_desktop,
    force_desktop_spawn, force_desktop_curproc, no_desktop.  More than one: ignored. *)
Inductive override := ODefault | OForce | OForceHelper | OForceSelf | ONever.
Definition override_of (os : open_os) : override :=
  match oo_force os, oo_force_spawn os, oo_force_curproc os, oo_suppress os with
  | true, false, false, false => OForce
  | false, true, false, false => OForceHelper
  | false, false, true, false => OForceSelf
  | false, false, false, true => ONever
  | _, _, _, _ => ODefault
  end.
(** The agent's console window would be seen on the caller's desktop: before Windows 7,
    unless showing it was asked for. *)
Definition needs_desktop (os : open_os) : bool := negb (oo_win7 os) && negb (oo_show os).
(** A background desktop is to be used *)
Definition wanted (os : open_os) : bool :=
  match override_of os with ODefault => needs_desktop os | ONever => false | _ => true end.
(** The calling process, not a helper agent, is to make it: flag 8
    (WINPTY_FLAG_ALLOW_CURPROC_DESKTOP_CREATION), unless the debug settings decide *)
Definition by_self (os : open_os) (flags : Z) : bool :=
  match override_of os with OForceHelper => false | OForceSelf => true | _ => Z.testbit flags 3 end.
(** This process touches no window station or desktop. *)
Definition stays_put (l : list ev) : Prop :=
  Forall (fun e => match e with EvStation _ | EvOpen ODesktop | EvOpen OStation => False | _ => True end) l.
(** The desktop the calling process can make. *)
Definition can_make (os : desk_os) : option (list Z) :=
  if do_orig os && do_station os && do_set os && do_desktop os then do_name os else None.
(** The helper agent reported this desktop. *)
Definition helper_says (os : open_os) (d : list Z) : Prop :=
  exists payload, so_packet (oo_helper os) = Ok payload /\ parseDesktop (oo_plat os) payload = Ok (RpDesktop d).

(** ** What goes wrong first decides the error (C53).  Codes (winpty_constants.h): 4 the
    agent executable is missing, 8 its process cannot be created, 6 it died, 7 it timed
    out; [XWinpty] is reported as 5, unspecified.  535 is ERROR_PIPE_CONNECTED. *)
Definition requires (ok : bool) (e : lexc) : option lexc := if ok then None else Some e.
Definition connecting (a : ioans) : option lexc :=
  match a with
  | Pend WDied _ _ _ => Some (XLib 6)
  | Pend WTimeout _ _ _ => Some (XLib 7)
  | Pend WFailed _ _ _ | Pend WUnknown _ _ _ => Some XWinpty
  | Now ok err _ | Pend WIo ok err _ => requires (ok || (err =? 535)) XWinpty
  end.
(** Starting an agent, step by step *)
Definition session_steps (os : sess_os) : list (option lexc) :=
  [requires (so_event os) XWinpty; requires (so_sd os) XWinpty; requires (so_pipe os) XWinpty;
   requires (so_exe os) (XLib 4);
   match so_pid os with Some _ => None | None => Some (XLib 8) end;
   connecting (so_connect os);
   match so_client os, so_pid os with
   | ClUnsupported, _ => None
   | ClPid p, Some q => requires (p =? q) XWinpty
   | _, _ => Some XWinpty
   end].
(** Reading what the agent has to say *)
Definition reading (packet : res lexc (list Z)) (parse : list Z -> res exc reply) : option lexc :=
  match packet with
  | Ok b => match parse b with Throw EDecode => Some XDecode | Throw EAlloc => Some XBadAlloc | _ => None end
  | Throw e => Some e
  | _ => None
  end.
(** The desktop the agent will be on; none: the caller's *)
Definition desktop_for (os : open_os) (flags : Z) : list Z :=
  if negb (wanted os) then []
  else if by_self os flags then match can_make (oo_desk os) with Some n => n | None => [] end
  else match so_packet (oo_helper os) with
       | Ok b => match parseDesktop (oo_plat os) b with Ok (RpDesktop n) => n | _ => [] end
       | _ => []
       end.
(** winpty_open, step by step *)
Definition open_steps (os : open_os) (flags : Z) : list (option lexc) :=
  (if wanted os && negb (by_self os flags)
   then session_steps (oo_helper os) ++ [reading (so_packet (oo_helper os)) (parseDesktop (oo_plat os))] else []) ++
  session_steps (oo_main os) ++
  [match desktop_for os flags, oo_current os with _ :: _, None => Some XWinpty | _, _ => None end;
   reading (so_packet (oo_main os)) (parseSetup (oo_plat os) (Z.testbit flags 0))].
Fixpoint first_failure (l : list (option lexc)) : option lexc :=
  match l with [] => None | Some e :: _ => Some e | None :: t => first_failure t end.
(** The system gives a documented answer to the wait; what is read is bytes, or an error. *)
Definition answers (os : sess_os) : Prop :=
  (forall ok err m, so_connect os <> Pend WUnknown ok err m) /\
  match so_packet os with Ok b => Forall (fun x => 0 <= x < 256) b | Throw _ => True | _ => False end.
