(** What the adapter's error messages are relied on for. *)
From Verif Require Import Base Text StringsSpec UnicodeSpec.

(** Text in both encodings *)
Definition utf16 (cps : list Z) : list Z := concat (map utf16_form cps).
Definition utf8 (cps : list Z) : list Z := concat (map utf8_form cps).
(** A text without the blanks at its end *)
Definition is_blank (c : Z) : Prop := c = 32 \/ c = 9 \/ c = 10 \/ c = 13.
Definition trimmed (s t : list Z) : Prop :=
  exists tail, s = t ++ tail /\ Forall is_blank tail /\ (t = [] \/ exists u c, t = u ++ [c] /\ ~ is_blank c).

(** The way an error code is shown *)
Definition shown_code (v : Z) (s : list Z) : Prop :=
  v = 0 /\ s = str "0" \/ v <> 0 /\ exists h, s = str "0x" ++ h /\ canonical 16 h v.
