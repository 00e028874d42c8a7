From Verif Require Import Base BaseLemmas NamedPipe NamedPipeSpec NamedPipeProofs Loop LoopSpec.
Ltac Zify.zify_post_hook ::= Z.div_mod_to_equations.

(** ** The clock *)
Lemma s32_diff a b : s32 (tick a - tick b) = s32 (a - b).
Proof. unfold s32, wraps, tick, u32, wrapu. change (2 ^ 32) with 4294967296. change (2 ^ (32 - 1)) with 2147483648.
  rewrite <- Zminus_mod. reflexivity. Qed.
Lemma s32_left a b i : s32 (tick b + i - tick a) = s32 (b + i - a).
Proof.
  unfold s32, wraps, tick, u32, wrapu. change (2 ^ 32) with 4294967296. change (2 ^ (32 - 1)) with 2147483648.
  replace ((b mod 4294967296 + i - a mod 4294967296) mod 4294967296) with ((b + i - a) mod 4294967296); [reflexivity|].
  rewrite (Zminus_mod (b mod 4294967296 + i)), Zplus_mod_idemp_l, <- Zminus_mod.
  rewrite (Zminus_mod (b + i) (a mod 4294967296)), Zmod_mod, <- Zminus_mod. reflexivity.
Qed.
Lemma s32_le x : 0 <= x -> s32 x <= x.
Proof. intros H. unfold s32, wraps. change (2 ^ 32) with 4294967296. change (2 ^ (32 - 1)) with 2147483648.
  destruct (_ <? _) eqn:E; lia. Qed.
Lemma s32_id x : - 2147483648 <= x < 2147483648 -> s32 x = x.
Proof. intros H. apply (wraps_small 32); lia. Qed.

(** ** The shape of a turn's log *)
Ltac splits := repeat match goal with |- _ /\ _ => split end.
Definition plain (e : lev) : Prop := match e with LService _ | LPipeIo _ _ => True | _ => False end.
Lemma put_length i q ps : (i < length ps)%nat -> length (put i q ps) = length ps.
Proof. intros H. unfold put. rewrite app_length, firstn_length. cbn [length]. rewrite skipn_length. lia. Qed.
Lemma nth_lt {A} (l : list A) i x : nth_error l i = Some x -> (i < length l)%nat.
Proof. intros H. apply nth_error_Some. congruence. Qed.
Lemma pipes_do_length ops : forall ps qs, pipes_do ops ps = Ok qs -> length qs = length ps.
Proof.
  induction ops as [|[i o] ops IH]; intros ps qs E; cbn [pipes_do] in E; [congruence|].
  destruct (nth_error ps i) as [p|] eqn:Ep; [|discriminate].
  destruct (pstep p o) as [[q d]| | | |]; try discriminate. cbn [bind] in E.
  rewrite (IH _ _ E). apply put_length. exact (nth_lt _ _ _ Ep).
Qed.
Lemma arrive_length l : forall ps, length (arrive l ps) = length ps.
Proof.
  unfold arrive. induction l as [|x l IH]; intros ps; [reflexivity|]. cbn [fold_left]. rewrite IH.
  destruct (nth_error ps (fst x)) as [p|] eqn:E; [|reflexivity]. apply put_length. exact (nth_lt _ _ _ E).
Qed.
Lemma services_app a b : services (a ++ b) = services a ++ services b.
Proof. unfold services. apply flat_map_app. Qed.

Lemma service_log f k : forall i ps ex l r, service_all f k i ps ex = (l, r) ->
  Forall plain l /\
  match r with
  | Ok (qs, ex', did, w) => services l = List.seq i k /\ (did = false -> ~ Exists is_handler l /\ ex' = ex) /\
      (ex' = true <-> ex = true \/ Exists asks_to_end l) /\ length qs = length ps
  | _ => True
  end.
Proof.
  induction k as [|k IH]; intros i ps ex l r E; cbn [service_all] in E.
  - injection E as <- <-. split; [constructor|]. split; [reflexivity|]. split; [intros _; split; [intros h; inversion h|reflexivity]|].
    split; [|reflexivity]. split; [auto|]. intros [h|h]; [exact h|inversion h].
  - destruct (nth_error ps i) as [p|] eqn:Ep; [|injection E as <- <-; split; [constructor|exact Logic.I]].
    pose proof (nth_lt _ _ _ Ep) as Lt.
    destruct (serviceIo (fst (f i)) p) as [[did q]| | | |];
      try (injection E as <- <-; split; [repeat constructor|exact Logic.I]).
    destruct did.
    + destruct (pipes_do (h_ops (snd (f i))) (put i q ps)) as [ps1| | | |] eqn:Eo;
        try (injection E as <- <-; split; [repeat constructor|exact Logic.I]).
      destruct (service_all f k (S i) ps1 (ex || h_exit (snd (f i)))) as [l1 r1] eqn:E1.
      injection E as <- <-. destruct (IH _ _ _ _ _ E1) as (P & Q). split; [repeat constructor; exact P|].
      destruct r1 as [[[[qs ex'] d] w]| | | |]; cbn [bind]; [|exact Logic.I ..]. destruct Q as (Q1 & Q2 & Q3 & Q4).
      split; [cbn [app services flat_map List.seq]; rewrite <- Q1; reflexivity|]. split; [discriminate|]. split.
      * rewrite Q3. rewrite orb_true_iff. split.
        -- intros [[H|H]|H]; [now left|right; right; left; cbn; rewrite H; exact Logic.I|right; right; right; exact H].
        -- intros [H|H]; [auto|]. inversion H as [x y H1|x y H1]; subst; [destruct H1|].
           inversion H1 as [x y H2|x y H2]; subst; [left; right; cbn in H2; destruct (h_exit _); [reflexivity|destruct H2]|right; exact H2].
      * rewrite Q4, (pipes_do_length _ _ _ Eo). apply put_length; exact Lt.
    + destruct (service_all f k (S i) (put i q ps) ex) as [l1 r1] eqn:E1.
      injection E as <- <-. destruct (IH _ _ _ _ _ E1) as (P & Q). split; [constructor; [exact Logic.I|exact P]|].
      destruct r1 as [[[[qs ex'] d] w]| | | |]; cbn [bind]; [|exact Logic.I ..]. destruct Q as (Q1 & Q2 & Q3 & Q4).
      split; [cbn [app services flat_map List.seq]; rewrite <- Q1; reflexivity|]. split.
      * intros Hd. destruct (Q2 Hd) as (Q5 & Q6). split; [|exact Q6]. intros H. inversion H as [x y H1|x y H1]; subst; [destruct H1|exact (Q5 H1)].
      * split; [|rewrite Q4; apply put_length; exact Lt]. rewrite Q3. split; intros [H|H].
        -- now left.
        -- right. right. exact H.
        -- now left.
        -- inversion H as [x y H1|x y H1]; subst; [destruct H1|auto].
Qed.

Definition bad (r : res unit lstate) : Prop := forall s, r <> Ok s.
Lemma turn_cases I t s l r : 0 < I -> loop_turn I t s = (l, r) ->
  exists ls, Forall plain ls /\
  let now := l_now s + t_d1 t in
  let n2 := now + t_d2 t in
  let ms := Z.max 0 (s32 (l_last s + I - tick n2)) in
  (l = ls /\ bad r) \/
  (I <= s32 (tick now - l_last s) /\ l = ls ++ [LClock now; LPoll now] /\ bad r) \/
  (I <= s32 (tick now - l_last s) /\ l = ls ++ [LClock now; LPoll now; LPolled (now + t_dp t) (h_exit (t_poll t))] /\
     exists ps ex, r = Ok (mkL ps ex (tick (now + t_dp t)) (now + t_dp t))) \/
  (s32 (tick now - l_last s) < I /\ l = ls ++ [LClock now] /\
     exists ps ex e, r = Ok (mkL ps ex (l_last s) e) /\ (e = now \/ (e = n2 /\ ms = 0))) \/
  (s32 (tick now - l_last s) < I /\
     (exists w, l = ls ++ [LClock now; LWait n2 w (Some ms); LWake (n2 + t_wait t (Some ms))]) /\
     ((exists ps ex, r = Ok (mkL ps ex (l_last s) (n2 + t_wait t (Some ms)))) \/ bad r)).
Proof.
  intros HI E. unfold loop_turn in E.
  destruct (service_all (t_pipe t) (length (l_pipes s)) 0 (arrive (t_peer t) (l_pipes s)) (l_exit s)) as [ls rs] eqn:Es.
  destruct (service_log _ _ _ _ _ _ _ Es) as (P & _). exists ls. split; [exact P|]. cbv zeta.
  destruct rs as [[[[ps ex] did] w]| | | |]; try (injection E as <- <-; left; split; [reflexivity|intros x; discriminate]).
  destruct (Z.ltb_spec 0 I) as [_|h]; [|lia]. set (now := l_now s + t_d1 t) in *.
  destruct (Z.leb_spec I (s32 (tick now - l_last s))) as [H|H].
  - destruct (pipes_do (h_ops (t_poll t)) ps) as [ps1| | | |]; injection E as <- <-.
    2-5: right; left; split; [exact H|]; split; [reflexivity|intros x; discriminate].
    right. right. left. split; [exact H|]. split; [reflexivity|]. eexists _, _. reflexivity.
  - destruct did.
    + injection E as <- <-. right. right. right. left. split; [exact H|]. split; [reflexivity|].
      exists ps, ex, now. split; [reflexivity|now left].
    + unfold loop_wait in E. cbn [l_now l_last l_pipes l_exit] in E.
      destruct (Z.ltb_spec 0 I) as [_|h]; [|lia].
      set (n2 := now + t_d2 t) in *. set (ms := Z.max 0 (s32 (l_last s + I - tick n2))) in *.
      destruct w as [|x w].
      * destruct (Z.ltb_spec 0 ms) as [Hm|Hm].
        -- injection E as <- <-. right. right. right. right. split; [exact H|]. split; [exists []; reflexivity|].
           left. eexists _, _. reflexivity.
        -- injection E as <- <-. right. right. right. left. split; [exact H|]. split; [reflexivity|].
           exists ps, ex, n2. split; [reflexivity|]. right. split; [reflexivity|]. unfold ms in *. lia.
      * injection E as <- <-. right. right. right. right. split; [exact H|]. split; [exists (x :: w); reflexivity|].
        destruct (t_wait_ok t); [left; eexists _, _; reflexivity|right; intros y; discriminate].
Qed.

(** ** Statements about every place in a log *)
Fixpoint along (P : Z -> lev -> list lev -> Prop) (L : Z) (l : list lev) : Prop :=
  match l with
  | [] => True
  | e :: r => P L e r /\ along P (match e with LPolled t _ => t | _ => L end) r
  end.
Lemma along_split P l1 : forall L e l2, along P L (l1 ++ e :: l2) -> P (last_poll L l1) e l2.
Proof.
  induction l1 as [|x l1 IH]; intros L e l2 H; cbn [app along] in H; [exact (proj1 H)|].
  destruct H as (_ & H). destruct x; exact (IH _ _ _ H).
Qed.
Lemma last_poll_app l1 : forall L l2, last_poll L (l1 ++ l2) = last_poll (last_poll L l1) l2.
Proof. induction l1 as [|x l1 IH]; intros L l2; [reflexivity|]. destruct x; cbn [app last_poll]; apply IH. Qed.
Lemma along_app (P : Z -> lev -> list lev -> Prop) (M : forall L e r r', P L e r -> P L e (r ++ r')) l1 : forall L l2,
  along P L l1 -> along P (last_poll L l1) l2 -> along P L (l1 ++ l2).
Proof.
  induction l1 as [|x l1 IH]; intros L l2 H1 H2; [exact H2|]. cbn [app along]. destruct H1 as (H1 & H3).
  split; [exact (M _ _ _ _ H1)|]. destruct x; cbn [last_poll] in H2; exact (IH _ _ H3 H2).
Qed.
Lemma plain_poll ls : Forall plain ls -> forall L, last_poll L ls = L.
Proof. induction 1 as [|x l H _ IH]; intros L; [reflexivity|]. destruct x; try destruct H; cbn [last_poll]; apply IH. Qed.
Lemma along_plain (P : Z -> lev -> list lev -> Prop) (Q : forall L e r, plain e -> P L e r) ls l2 : Forall plain ls -> forall L,
  along P L l2 -> along P L (ls ++ l2).
Proof. induction 1 as [|x l H _ IH]; intros L H2; [exact H2|]. cbn [app along]. split; [exact (Q _ _ _ H)|].
  destruct x; try destruct H; exact (IH _ H2). Qed.

(** The timing rules that need no assumption but that time goes on *)
Definition rules (I : Z) (L : Z) (e : lev) (r : list lev) : Prop :=
  match e with
  | LClock t => L + I <= t < L + 2 ^ 31 -> exists r', r = LPoll t :: r'
  | LPoll t => L + I <= t
  | LWait t _ ms => exists m, ms = Some m /\ 0 <= m /\ (t < L + 2 ^ 31 -> t + m <= Z.max t (L + I))
  | _ => True
  end.
Lemma rules_mono I L e r r' : rules I L e r -> rules I L e (r ++ r').
Proof. destruct e; cbn [rules]; auto. intros H H1. destruct (H H1) as (x & ->). exists (x ++ r'). reflexivity. Qed.
Lemma rules_plain I L e r : plain e -> rules I L e r.
Proof. destruct e; intros []; exact Logic.I. Qed.

Lemma turn_rules I t s l r L : 0 < I < 2 ^ 31 -> forward t -> l_last s = tick L -> L <= l_now s ->
  loop_turn I t s = (l, r) ->
  along (rules I) L l /\
  forall s', r = Ok s' -> l_last s' = tick (last_poll L l) /\ last_poll L l <= l_now s'.
Proof.
  intros HI (F1 & F2 & F3 & F4) HL Hn E. destruct (turn_cases I t s l r ltac:(lia) E) as (ls & P & C). cbv zeta in C.
  set (now := l_now s + t_d1 t) in *. set (n2 := now + t_d2 t) in *.
  rewrite HL in C. rewrite !s32_diff, !s32_left in C. set (ms := Z.max 0 (s32 (L + I - n2))) in *.
  assert (K1 : L <= now) by (unfold now; lia). assert (K2 : now <= n2) by (unfold n2; lia).
  change (2 ^ 31) with 2147483648 in *.
  assert (W : n2 < L + 2147483648 -> n2 + ms <= Z.max n2 (L + I)).
  { intros W. unfold ms. rewrite s32_id by lia. lia. }
  assert (Cl : s32 (now - L) < I -> L + I <= now < L + 2147483648 -> False).
  { intros A1 A2. rewrite s32_id in A1 by lia. lia. }
  pose proof (along_plain (rules I) (rules_plain I) ls) as AP.
  destruct C as [(-> & B)|[(C1 & -> & B)|[(C1 & -> & ps & ex & ->)|[(C1 & -> & ps & ex & e & -> & C2)|(C1 & (w & ->) & C2)]]]].
  - split; [|intros s' e; destruct (B _ e)]. rewrite <- (app_nil_r ls). apply AP; [exact P|exact Logic.I].
  - split; [|intros s' e; destruct (B _ e)]. apply AP; [exact P|]. cbn [along rules]. repeat split.
    + intros _. eexists. reflexivity.
    + pose proof (s32_le (now - L) ltac:(lia)). lia.
  - split.
    + apply AP; [exact P|]. cbn [along rules]. repeat split.
      * intros _. eexists. reflexivity.
      * pose proof (s32_le (now - L) ltac:(lia)). lia.
    + intros s' e. injection e as <-. rewrite last_poll_app, (plain_poll ls P). cbn [last_poll l_last l_now]. split; [reflexivity|lia].
  - split.
    + apply AP; [exact P|]. cbn [along rules]. repeat split. intros A. destruct (Cl C1 A).
    + intros s' q. injection q as <-. rewrite last_poll_app, (plain_poll ls P). cbn [last_poll l_last l_now].
      split; [reflexivity|]. destruct C2 as [->|(-> & _)]; lia.
  - split.
    + apply AP; [exact P|]. cbn [along rules]. repeat split.
      * intros A. destruct (Cl C1 A).
      * exists ms. split; [reflexivity|]. split; [unfold ms; lia|exact W].
    + intros s' q. rewrite last_poll_app, (plain_poll ls P). cbn [last_poll].
      destruct C2 as [(ps & ex & ->)|B]; [|destruct (B _ q)]. injection q as <-. cbn [l_last l_now].
      split; [reflexivity|]. pose proof (F4 (Some ms)). lia.
Qed.

Lemma turns_rules I ts : 0 < I < 2 ^ 31 -> Forall forward ts -> forall s l r L, l_last s = tick L -> L <= l_now s ->
  loop_turns I ts s = (l, r) -> along (rules I) L l.
Proof.
  intros HI F. induction F as [|t ts Ft _ IH]; intros s l r L HL Hn E; cbn [loop_turns] in E; [injection E as <- _; exact Logic.I|].
  destruct (l_exit s); [injection E as <- _; exact Logic.I|].
  destruct (loop_turn I t s) as [l1 r1] eqn:E1. destruct (turn_rules I t s l1 r1 L HI Ft HL Hn E1) as (A & B).
  destruct r1 as [s1| | | |]; try (injection E as <- _; exact A).
  destruct (loop_turns I ts s1) as [l2 r2] eqn:E2. injection E as <- <-. destruct (B _ eq_refl) as (B1 & B2).
  apply along_app; [apply rules_mono|exact A|]. exact (IH _ _ _ _ B1 B2 E2).
Qed.
Lemma run_rules I ps start ts l r : 0 < I < 2 ^ 31 -> Forall forward ts -> loop_run I ps start ts = (l, r) ->
  along (rules I) start l.
Proof. intros HI F E. refine (turns_rules I ts HI F _ l r start _ _ E); [reflexivity|cbn; lia]. Qed.

Lemma not_early I ps start ts l r l1 t l2 : 0 < I < 2 ^ 31 -> Forall forward ts -> loop_run I ps start ts = (l, r) ->
  l = l1 ++ LPoll t :: l2 -> last_poll start l1 + I <= t.
Proof. intros HI F E ->. exact (along_split _ _ _ _ _ (run_rules _ _ _ _ _ _ HI F E)). Qed.
Lemma due_polled I ps start ts l r l1 t l2 : 0 < I < 2 ^ 31 -> Forall forward ts -> loop_run I ps start ts = (l, r) ->
  l = l1 ++ LClock t :: l2 -> last_poll start l1 + I <= t < last_poll start l1 + 2 ^ 31 -> exists l3, l2 = LPoll t :: l3.
Proof. intros HI F E ->. exact (along_split _ _ _ _ _ (run_rules _ _ _ _ _ _ HI F E)). Qed.
Lemma wait_bounded I ps start ts l r l1 t w ms l2 : 0 < I < 2 ^ 31 -> Forall forward ts -> loop_run I ps start ts = (l, r) ->
  l = l1 ++ LWait t w ms :: l2 ->
  exists m, ms = Some m /\ 0 <= m /\ (t < last_poll start l1 + 2 ^ 31 -> t + m <= Z.max t (last_poll start l1 + I)).
Proof. intros HI F E ->. exact (along_split _ _ _ _ _ (run_rules _ _ _ _ _ _ HI F E)). Qed.

(** ** Not late *)
Definition intime (D : Z) (L : Z) (e : lev) (r : list lev) : Prop := match time_of e with Some t => t <= L + D | None => True end.
Lemma turn_intime I b k t s l r L : 0 < I -> 0 <= b -> 0 <= k -> I + 2 * b + k < 2 ^ 31 -> steady b k t -> l_last s = tick L ->
  L <= l_now s <= L + I + b + k -> loop_turn I t s = (l, r) ->
  along (intime (I + 2 * b + k)) L l /\
  forall s', r = Ok s' -> l_last s' = tick (last_poll L l) /\ last_poll L l <= l_now s' <= last_poll L l + I + b + k.
Proof.
  intros HI Hb Hk HB ((F1 & F2 & F3 & F4) & S1 & S2 & S3) HL Hn E.
  destruct (turn_cases I t s l r ltac:(lia) E) as (ls & P & C). cbv zeta in C.
  set (now := l_now s + t_d1 t) in *. set (n2 := now + t_d2 t) in *.
  rewrite HL in C. rewrite !s32_diff, !s32_left in C.
  assert (K1 : L <= now <= L + I + 2 * b + k) by (unfold now; lia). assert (K2 : now <= n2 <= now + b) by (unfold n2; lia).
  change (2 ^ 31) with 2147483648 in *.
  rewrite s32_id in C by lia. 
  pose proof (along_plain (intime (I + 2 * b + k)) (fun L e r H => match e as e0 return plain e0 -> intime (I + 2 * b + k) L e0 r with
    | LService _ => fun _ => Logic.I | LPipeIo _ _ => fun _ => Logic.I | _ => fun f => False_ind _ f end H) ls) as AP.
  destruct C as [(-> & B)|[(C1 & -> & B)|[(C1 & -> & ps & ex & ->)|[(C1 & -> & ps & ex & e & -> & C2)|(C1 & (w & ->) & C2)]]]].
  - split; [|intros s' e; destruct (B _ e)]. rewrite <- (app_nil_r ls). apply AP; [exact P|exact Logic.I].
  - split; [|intros s' e; destruct (B _ e)]. apply AP; [exact P|]. cbn [along intime time_of]. unfold intime; cbn [time_of]. repeat split; lia.
  - split.
    + apply AP; [exact P|]. cbn [along]. unfold intime; cbn [time_of]. repeat split; lia.
    + intros s' e. injection e as <-. rewrite last_poll_app, (plain_poll ls P). cbn [last_poll l_last l_now]. split; [reflexivity|lia].
  - split.
    + apply AP; [exact P|]. cbn [along]. unfold intime; cbn [time_of]. repeat split; lia.
    + intros s' q. injection q as <-. rewrite last_poll_app, (plain_poll ls P). cbn [last_poll l_last l_now].
      split; [reflexivity|]. destruct C2 as [->|(-> & _)]; lia.
  - rewrite s32_id in C2 by lia. rewrite s32_id by lia. set (ms := Z.max 0 (L + I - n2)) in *.
    pose proof (S3 ms ltac:(unfold ms; lia)) as S4. pose proof (F4 (Some ms)) as F5.
    assert (W : n2 + t_wait t (Some ms) <= L + I + b + k) by (unfold ms in *; lia).
    split.
    + apply AP; [exact P|]. cbn [along]. unfold intime; cbn [time_of]. repeat split; lia.
    + intros s' q. rewrite last_poll_app, (plain_poll ls P). cbn [last_poll].
      destruct C2 as [(ps & ex & ->)|B]; [|destruct (B _ q)]. injection q as <-. cbn [l_last l_now]. split; [reflexivity|]. lia.
Qed.
Lemma not_late I b k ps start ts l r l1 e t l2 : 0 < I -> 0 <= b -> 0 <= k -> I + 2 * b + k < 2 ^ 31 -> Forall (steady b k) ts ->
  loop_run I ps start ts = (l, r) -> l = l1 ++ e :: l2 -> time_of e = Some t -> t <= last_poll start l1 + I + 2 * b + k.
Proof.
  intros HI Hb Hk HB F E -> Et.
  assert (A : along (intime (I + 2 * b + k)) start (l1 ++ e :: l2)).
  { revert E. unfold loop_run. generalize (l1 ++ e :: l2). intros l. clear l1 e l2 Et.
    assert (H0 : l_last (mkL ps false (tick start) start) = tick start /\
      start <= l_now (mkL ps false (tick start) start) <= start + I + b + k) by (cbn; lia).
    revert H0. generalize (mkL ps false (tick start) start). intros s. revert s l r start.
    induction F as [|t' ts Ft _ IH]; intros s l r L (HL & Hn) E; cbn [loop_turns] in E; [injection E as <- _; exact Logic.I|].
    destruct (l_exit s); [injection E as <- _; exact Logic.I|].
    destruct (loop_turn I t' s) as [l1 r1] eqn:E1. destruct (turn_intime I b k t' s l1 r1 L HI Hb Hk HB Ft HL Hn E1) as (A & B).
    destruct r1 as [s1| | | |]; try (injection E as <- _; exact A).
    destruct (loop_turns I ts s1) as [l2 r2] eqn:E2. injection E as <- <-.
    apply along_app; [intros ? ? ? ? H; exact H|exact A|]. exact (IH _ _ _ _ (B _ eq_refl) E2). }
  pose proof (along_split _ _ _ _ _ A) as H. unfold intime in H. rewrite Et in H. lia.
Qed.

(** ** The pipes *)
Lemma step_wf p o q d : wf p -> pstep p o = Ok (q, d) -> wf q /\ same_mode p q.
Proof.
  intros W E.
  destruct (pstep_inv p o q d [] (if np_open p then out_all p else np_sent p)
           (if np_open p then np_inq p ++ np_peer p else np_inq p) W) as (A & _ & _ & B & _); auto.
  - unfold out_inv. destruct (np_open p); [reflexivity|apply is_prefix_refl].
  - unfold in_inv. destruct (np_open p); [reflexivity|apply is_prefix_refl].
Qed.
Definition good (ms : modes) (ps : list pipe) : Prop :=
  length ps = length ms /\ forall i p, nth_error ps i = Some p -> wf p /\ exists c, nth_error ms i = Some (c, np_reading p, np_writing p).
Lemma good_opened ms : good ms (opened ms).
Proof.
  split; [unfold opened; apply map_length|]. intros i p E. unfold opened in E. rewrite nth_error_map in E.
  destruct (nth_error ms i) as [[[c r] w]|]; [|discriminate]. cbn [option_map fst snd] in E. injection E as <-.
  split; [apply fresh_wf|]. exists c. destruct c, r, w; reflexivity.
Qed.
Lemma nth_put i q ps j : (i < length ps)%nat -> nth_error (put i q ps) j = if Nat.eqb j i then Some q else nth_error ps j.
Proof.
  intros H. unfold put. destruct (Nat.eqb_spec j i) as [->|N].
  - rewrite nth_error_app2; rewrite firstn_length; [|lia]. replace (i - _)%nat with 0%nat by lia. reflexivity.
  - destruct (Nat.lt_ge_cases j i) as [L|L].
    + rewrite nth_error_app1 by (rewrite firstn_length; lia). revert L. clear. revert i j.
      induction ps as [|x ps IH]; intros i j L; [rewrite firstn_nil; destruct j; reflexivity|].
      destruct i as [|i]; [lia|]. cbn [firstn]. destruct j as [|j]; [reflexivity|]. cbn [nth_error]. apply IH. lia.
    + rewrite nth_error_app2; rewrite firstn_length; [|lia]. rewrite Nat.min_l by lia.
      destruct (j - i)%nat as [|k] eqn:Ek; [lia|]. cbn [nth_error].
      replace j with (S i + k)%nat by lia. clear. generalize (S i). intros n. revert ps.
      induction n as [|n IH]; intros ps; [reflexivity|]. destruct ps as [|x ps]; [destruct k; reflexivity|]. cbn [skipn plus nth_error]. apply IH.
Qed.
Lemma good_put ms i p q ps : good ms ps -> nth_error ps i = Some p -> wf q -> same_mode p q -> good ms (put i q ps).
Proof.
  intros (G1 & G2) E W (M1 & M2). pose proof (nth_lt _ _ _ E) as Lt. split; [rewrite put_length; auto|].
  intros j x H. rewrite nth_put in H by exact Lt. destruct (Nat.eqb_spec j i) as [->|N].
  - injection H as <-. split; [exact W|]. destruct (G2 _ _ E) as (_ & c & Ec). exists c. rewrite M1, M2. exact Ec.
  - exact (G2 _ _ H).
Qed.
Lemma good_do ms ops : forall ps qs, good ms ps -> pipes_do ops ps = Ok qs -> good ms qs.
Proof.
  induction ops as [|[i o] ops IH]; intros ps qs G E; cbn [pipes_do] in E; [assert (ps = qs) as <- by congruence; exact G|].
  destruct (nth_error ps i) as [p|] eqn:Ep; [|discriminate].
  destruct (pstep p o) as [[q d]| | | |] eqn:Es; try discriminate. cbn [bind] in E.
  destruct (step_wf p o q d (proj1 (proj2 G _ _ Ep)) Es) as (W & M). exact (IH _ _ (good_put _ _ _ _ _ G Ep W M) E).
Qed.
Lemma good_arrive ms l : forall ps, good ms ps -> good ms (arrive l ps).
Proof.
  unfold arrive. induction l as [|x l IH]; intros ps G; [exact G|]. cbn [fold_left]. apply IH.
  destruct (nth_error ps (fst x)) as [p|] eqn:E; [|exact G].
  destruct (step_wf p (PPeer (snd x)) (peer_write (snd x) p) [] (proj1 (proj2 G _ _ E)) eq_refl) as (W & M).
  exact (good_put _ _ _ _ _ G E W M).
Qed.
Lemma service_wf a p b q : wf p -> serviceIo a p = Ok (b, q) -> wf q /\ same_mode p q.
Proof. intros W E. apply (step_wf p (PService a) q [] W). cbn [pstep]. rewrite E. reflexivity. Qed.
Lemma good_service ms f k : forall i ps ex l r, good ms ps -> service_all f k i ps ex = (l, r) ->
  match r with Ok (qs, _, _, _) => good ms qs | _ => True end.
Proof.
  induction k as [|k IH]; intros i ps ex l r G E; cbn [service_all] in E; [injection E as <- <-; exact G|].
  destruct (nth_error ps i) as [p|] eqn:Ep; [|injection E as <- <-; exact Logic.I].
  destruct (serviceIo (fst (f i)) p) as [[did q]| | | |] eqn:Es; try (injection E as <- <-; exact Logic.I).
  destruct (service_wf _ _ _ _ (proj1 (proj2 G _ _ Ep)) Es) as (W & M). pose proof (good_put _ _ _ _ _ G Ep W M) as G1.
  destruct did.
  - destruct (pipes_do (h_ops (snd (f i))) (put i q ps)) as [ps1| | | |] eqn:Eo; try (injection E as <- <-; exact Logic.I).
    destruct (service_all f k (S i) ps1 (ex || h_exit (snd (f i)))) as [l1 r1] eqn:E1.
    injection E as <- <-. pose proof (IH _ _ _ _ _ (good_do _ _ _ _ G1 Eo) E1) as H. destruct r1 as [[[[a b] c] d]| | | |]; exact H.
  - destruct (service_all f k (S i) (put i q ps) ex) as [l1 r1] eqn:E1.
    injection E as <- <-. pose proof (IH _ _ _ _ _ G1 E1) as H. destruct r1 as [[[[a b] c] d]| | | |]; exact H.
Qed.

(** A pipe that made no progress is at rest. *)
Lemma in_loop_prog ans : forall p q, in_loop ans p Progress <> Ok (NoProgress, q).
Proof.
  induction ans as [|a ans IH]; intros p q E; cbn [in_loop] in E;
    (destruct (in_should_issue p) as [[|]| | | |]; cbn [bind] in E; try discriminate).
  destruct a; try discriminate. exact (IH _ _ E).
Qed.
Lemma in_loop_rest ans : forall p pr q, np_connecting p = false -> in_loop ans p pr = Ok (NoProgress, q) ->
  np_connecting q = false /\ np_open q = np_open p /\ np_writing q = np_writing p /\ np_outq q = np_outq p /\ np_out q = np_out p /\
  np_reading q = np_reading p /\ (np_open p = true -> pending (np_in q) = true \/ np_rbs q <= zlen (np_inq q)).
Proof.
  induction ans as [|a ans IH]; intros p pr q Hc E; cbn [in_loop] in E; unfold in_should_issue in E; rewrite Hc in E; cbn [negb assert_ bind] in E.
  - destruct (np_open p) eqn:Eo; cbn [negb bind] in E; [|injection E as -> ->; splits; auto; discriminate].
    destruct (np_reading p) eqn:Er; cbn [assert_ bind] in E; [|discriminate].
    destruct (Z.ltb_spec (zlen (np_inq p)) (np_rbs p)) as [H|H]; injection E as -> <-; cbn; splits; auto.
  - destruct (np_open p) eqn:Eo; cbn [negb bind] in E; [|injection E as -> ->; splits; auto; discriminate].
    destruct (np_reading p) eqn:Er; cbn [assert_ bind] in E; [|discriminate].
    destruct (Z.ltb_spec (zlen (np_inq p)) (np_rbs p)) as [H|H]; [|injection E as -> <-; splits; auto].
    destruct a as [s| |]; [|injection E as -> <-; cbn; splits; auto|discriminate].
    destruct (in_loop_prog _ _ _ E).
Qed.
Lemma out_loop_prog ans : forall p q, out_loop ans p Progress <> Ok (NoProgress, q).
Proof.
  induction ans as [|a ans IH]; intros p q E; cbn [out_loop] in E; destruct (np_outq p) as [|b bq]; try discriminate.
  destruct a as [s| |]; try discriminate. unfold out_complete in E. destruct (_ =? _); cbn [assert_ bind] in E; [|discriminate].
  exact (IH _ _ E).
Qed.
Lemma out_loop_rest ans : forall p pr q, out_loop ans p pr = Ok (NoProgress, q) ->
  np_connecting q = np_connecting p /\ np_open q = np_open p /\ np_writing q = np_writing p /\ np_reading q = np_reading p /\
  np_rbs q = np_rbs p /\ np_inq q = np_inq p /\ np_in q = np_in p /\ (np_outq q = [] \/ pending (np_out q) = true).
Proof.
  induction ans as [|a ans IH]; intros p pr q E; cbn [out_loop] in E.
  - destruct (np_outq p) as [|b bq] eqn:Eq; injection E as -> <-; cbn; splits; auto.
  - destruct (np_outq p) as [|b bq] eqn:Eq; [injection E as -> <-; splits; auto|].
    destruct a as [s| |]; [|injection E as -> <-; cbn; splits; auto|discriminate].
    unfold out_complete in E. destruct (_ =? _); cbn [assert_ bind] in E; [|discriminate].
    destruct (out_loop_prog _ _ _ E).
Qed.
Lemma service_rest i a p q : wf p -> serviceIo a p = Ok (false, q) -> np_open q = true -> at_rest (wait_events i q) i q.
Proof.
  intros W E O. unfold serviceIo in E.
  destruct (np_open p) eqn:Eo; cbn [negb] in E; [|injection E as ->; congruence].
  destruct (np_connecting p) eqn:Ec.
  - destruct (sv_conn a) eqn:Ea; cbn [bind] in E; [|destruct (proj1 W Ec) as (W1 & W2); rewrite W1 in E; cbn [bind] in E; rewrite W2 in E; cbn [bind is_serror orb is_progress] in E|discriminate].
    + apply bind_Ok in E. destruct E as ((rp & p2) & _ & E). apply bind_Ok in E. destruct E as ((wp & p3) & _ & E).
      destruct (_ || _); discriminate.
    + injection E as <-. left. split; [exact Ec|]. unfold wait_events. rewrite Eo, Ec. left. reflexivity.
  - cbn [bind] in E. right.
    apply bind_Ok in E. destruct E as ((rp & p2) & Er & E). apply bind_Ok in E. destruct E as ((wp & p3) & Ew & E).
    destruct (is_serror rp || is_serror wp) eqn:Ee; [discriminate|].
    assert (rp = NoProgress /\ wp = NoProgress /\ p3 = q) as (-> & -> & ->).
    { injection E as E1 ->. destruct rp, wp; try discriminate; auto. }
    clear E Ee.
    assert (H2 : np_connecting p2 = false /\ np_open p2 = true /\ np_writing p2 = np_writing p /\ np_out p2 = np_out p /\ np_reading p2 = np_reading p /\
                 (np_reading p = true -> pending (np_in p2) = true \/ np_rbs p2 <= zlen (np_inq p2))).
    { destruct (np_in p) as [w|] eqn:Ei.
      - unfold in_service in Er. destruct (w_pending w) eqn:Ep.
        + assert (N : p2 = p) by (destruct (sv_read a) as [|[s| |] ans]; try congruence; destruct (in_loop_prog _ _ _ Er)).
          rewrite N. splits; auto. intros _. left. rewrite Ei. exact Ep.
        + destruct (in_loop_rest _ _ _ _ Ec Er) as (A & B & C & D & F & K & M). splits; auto; congruence.
      - assert (p2 = p) as -> by congruence. splits; auto. intros R. destruct (proj2 (proj2 (proj2 (proj2 (proj2 (proj2 W))))) Eo Ec R Ei). }
    destruct H2 as (A1 & A2 & A3 & A4 & A5 & A6).
    assert (H3 : np_connecting q = false /\ np_writing q = np_writing p /\ np_reading q = np_reading p /\ np_in q = np_in p2 /\ np_rbs q = np_rbs p2 /\ np_inq q = np_inq p2 /\
                 (np_writing p = true -> np_outq q = [] \/ pending (np_out q) = true)).
    { destruct (np_out p2) as [w|] eqn:Ei.
      - unfold out_service in Ew. destruct (w_pending w) eqn:Ep.
        + assert (N : q = p2).
          { destruct (sv_write a) as [|[s| |] ans]; try congruence. unfold out_complete in Ew. destruct (_ =? _); cbn [assert_ bind] in Ew; [|discriminate].
            destruct (out_loop_prog _ _ _ Ew). }
          rewrite N. splits; auto. intros _. right. rewrite Ei. exact Ep.
        + destruct (out_loop_rest _ _ _ _ Ew) as (A & B & C & D & F & K & M & N). splits; auto; congruence.
      - assert (q = p2) as -> by congruence. splits; auto. intros R. destruct (proj1 (proj2 (proj2 (proj2 (proj2 (proj2 W))))) Eo Ec R). congruence. }
    destruct H3 as (B1 & B2 & B3 & B4 & B5 & B6 & B7).
    split; [exact B1|]. unfold wait_events. rewrite B1, andb_false_r. cbn [app]. split.
    + rewrite B2. intros R. destruct (B7 R) as [->| ->]; [now left|]. right. apply in_or_app. right. left. reflexivity.
    + rewrite B3, B4, B5, B6. intros R. destruct (A6 R) as [->|H]; [|now left]. right. apply in_or_app. left. left. reflexivity.
Qed.
Lemma rest_more w w' i q : (forall x, In x w -> In x w') -> at_rest w i q -> at_rest w' i q.
Proof. intros S [(A & B)|(A & B & C)]; [left; auto|right]. split; [exact A|]. split; intros R; [destruct (B R)|destruct (C R)]; auto. Qed.
Lemma wait_valid i q x : wf q -> In x (wait_events i q) -> fst x = i /\ np_open q = true.
Proof.
  intros W H. unfold wait_events in H.
  assert (K : np_open q = false -> np_in q = None /\ np_out q = None /\ np_connecting q = false) by apply W.
  destruct (np_open q) eqn:Eo.
  - split; [|reflexivity]. rewrite !in_app_iff in H.
    destruct (true && np_connecting q), (pending (np_in q)), (pending (np_out q)); cbn in H; intuition (subst; reflexivity).
  - destruct (K eq_refl) as (K1 & K2 & _). rewrite K1, K2 in H. destruct H.
Qed.

Lemma service_idle ms f k : forall i ps ex l qs ex' w, good ms ps -> service_all f k i ps ex = (l, Ok (qs, ex', false, w)) ->
  (forall j, (j < i)%nat \/ (i + k <= j)%nat -> nth_error qs j = nth_error ps j) /\
  (forall j q, (i <= j < i + k)%nat -> nth_error qs j = Some q -> np_open q = true -> at_rest w j q) /\
  (forall x, In x w -> exists q, (i <= fst x)%nat /\ nth_error qs (fst x) = Some q /\ np_open q = true).
Proof.
  induction k as [|k IH]; intros i ps ex l qs ex' w G E; cbn [service_all] in E.
  - injection E as <- <- <- <-. splits; [reflexivity|intros; lia|intros x []].
  - destruct (nth_error ps i) as [p|] eqn:Ep; [|discriminate]. pose proof (nth_lt _ _ _ Ep) as Lt.
    destruct (serviceIo (fst (f i)) p) as [[did q]| | | |] eqn:Es; try discriminate.
    destruct (service_wf _ _ _ _ (proj1 (proj2 G _ _ Ep)) Es) as (W & M). pose proof (good_put _ _ _ _ _ G Ep W M) as G1.
    destruct did.
    + destruct (pipes_do (h_ops (snd (f i))) (put i q ps)) as [ps1| | | |]; try discriminate.
      destruct (service_all f k (S i) ps1 (ex || h_exit (snd (f i)))) as [l1 r1].
      destruct r1 as [[[[a b] c] d]| | | |]; cbn [bind] in E; discriminate.
    + destruct (service_all f k (S i) (put i q ps) ex) as [l1 r1] eqn:E1.
      destruct r1 as [[[[a b] c] d]| | | |]; cbn [bind] in E; try discriminate. injection E as <- <- <- -> <-.
      destruct (IH _ _ _ _ _ _ _ G1 E1) as (H1 & H2 & H3).
      assert (Hi : nth_error a i = Some q) by (rewrite H1 by lia; rewrite nth_put by exact Lt; rewrite Nat.eqb_refl; reflexivity).
      splits.
      * intros j Hj. rewrite H1 by lia. rewrite nth_put by exact Lt. destruct (Nat.eqb_spec j i); [lia|reflexivity].
      * intros j x Hj Ex Ox. destruct (Nat.eq_dec j i) as [->|N].
        -- assert (x = q) as -> by congruence. apply (rest_more (wait_events i q)); [intros y Hy; apply in_or_app; now left|].
           exact (service_rest i _ _ _ (proj1 (proj2 G _ _ Ep)) Es Ox).
        -- apply (rest_more d); [intros y Hy; apply in_or_app; now right|]. apply (H2 j x); [lia|exact Ex|exact Ox].
      * intros x Hx. apply in_app_or in Hx. destruct Hx as [Hx|Hx].
        -- destruct (wait_valid _ _ _ W Hx) as (-> & Ho). exists q. split; [lia|]. auto.
        -- destruct (H3 x Hx) as (y & Y1 & Y2). exists y. split; [lia|exact Y2].
Qed.

(** ** What one turn does to the pipes *)
Lemma wait_cases I t w s l s' : loop_wait I t w s = (l, Ok s') ->
  l_pipes s' = l_pipes s /\ l_exit s' = l_exit s /\ (l = [] \/ exists a m b, l = [LWait a w m; LWake b]).
Proof.
  intros Ew. unfold loop_wait in Ew. destruct w as [|x w]; destruct (0 <? I).
  - match type of Ew with context [if ?b then _ else _] => destruct b end; injection Ew as <- <-; cbn; splits; auto.
    right. eexists _, _, _. reflexivity.
  - discriminate.
  - destruct (t_wait_ok t); [|discriminate]. injection Ew as <- <-. cbn. splits; auto. right. eexists _, _, _. reflexivity.
  - destruct (t_wait_ok t); [|discriminate]. injection Ew as <- <-. cbn. splits; auto. right. eexists _, _, _. reflexivity.
Qed.
Definition no_wait (e : lev) : Prop := match e with LWait _ _ _ => False | _ => True end.
Lemma split_wait l : forall a w m b l1 at_ w' m' l2, Forall no_wait l -> l ++ [LWait a w m; LWake b] = l1 ++ LWait at_ w' m' :: l2 -> w' = w /\ l1 = l.
Proof.
  induction l as [|x l IH]; intros a w m b l1 at_ w' m' l2 F El.
  - destruct l1 as [|y l1]; cbn [app] in El; [injection El as _ -> _ _; auto|]. injection El as _ El.
    destruct l1 as [|y' l1]; cbn [app] in El; [discriminate|]. injection El as _ El. destruct l1; discriminate.
  - inversion F as [|? ? F1 F2]; subst. destruct l1 as [|y l1]; cbn [app] in El.
    + injection El as -> _. destruct F1.
    + injection El as <- El. destruct (IH _ _ _ _ _ _ _ _ _ F2 El) as (-> & ->). auto.
Qed.
Lemma no_wait_split l l1 a w m l2 : Forall no_wait l -> l = l1 ++ LWait a w m :: l2 -> False.
Proof.
  intros F ->. rewrite Forall_app in F. destruct F as (_ & F). inversion F as [|? ? F1 F2]. exact F1.
Qed.
Lemma plain_no_wait ls : Forall plain ls -> Forall no_wait ls.
Proof. apply Forall_impl. intros [] h; try destruct h; exact Logic.I. Qed.
Lemma asks_handler a : Exists asks_to_end a -> Exists is_handler a.
Proof. intros h. induction h as [y u K|y u K IH]; [left; destruct y; try destruct K; exact Logic.I|right; exact IH]. Qed.

Definition rest_state (l : list lev) (n : nat) (ex0 : bool) (s' : lstate) : Prop :=
  forall l1 at_ w m l2, l = l1 ++ LWait at_ w m :: l2 ->
     ~ Exists is_handler l /\ l_exit s' = ex0 /\ services l1 = List.seq 0 n /\
     (forall i q, nth_error (l_pipes s') i = Some q -> np_open q = true -> at_rest w i q) /\
     (forall x, In x w -> exists q, nth_error (l_pipes s') (fst x) = Some q /\ np_open q = true).
Lemma turn_ok ms I t s l s' : good ms (l_pipes s) -> loop_turn I t s = (l, Ok s') ->
  good ms (l_pipes s') /\ services l = List.seq 0 (length (l_pipes s)) /\ (l_exit s' = true <-> l_exit s = true \/ Exists asks_to_end l) /\
  rest_state l (length (l_pipes s)) (l_exit s) s'.
Proof.
  intros G E. unfold loop_turn in E.
  destruct (service_all (t_pipe t) (length (l_pipes s)) 0 (arrive (t_peer t) (l_pipes s)) (l_exit s)) as [ls rs] eqn:Es.
  pose proof (good_arrive ms (t_peer t) _ G) as Ga. destruct (service_log _ _ _ _ _ _ _ Es) as (P & Q).
  pose proof (good_service ms _ _ _ _ _ _ _ Ga Es) as Gs.
  destruct rs as [[[[ps ex] did] w]| | | |]; try discriminate. destruct Q as (Q1 & Q2 & Q3 & Q4).
  pose proof (plain_no_wait ls P) as PN.
  assert (Nin : forall x : Z, ~ Exists asks_to_end [LClock x]).
  { intros x h. inversion h as [? ? K|? ? K]; [exact K|inversion K]. }
  assert (Quiet : did = false -> forall c l', (c = [] \/ exists x, c = [LClock x]) ->
     loop_wait I t w (mkL ps ex (l_last s) (l_now s + t_d1 t)) = (l', Ok s') -> l = ls ++ c ++ l' ->
     good ms (l_pipes s') /\ services l = List.seq 0 (length (l_pipes s)) /\ (l_exit s' = true <-> l_exit s = true \/ Exists asks_to_end l) /\
     rest_state l (length (l_pipes s)) (l_exit s) s').
  { intros -> c l' Hc Ew ->. destruct (Q2 eq_refl) as (Q5 & Qe). subst ex.
    destruct (service_idle ms _ _ _ _ _ _ _ _ _ Ga Es) as (_ & I1 & I2).
    destruct (wait_cases _ _ _ _ _ _ Ew) as (Ep & Ex & Hl'). cbn [l_pipes l_exit] in Ep, Ex.
    assert (NH : ~ Exists is_handler (ls ++ c ++ l')).
    { rewrite !Exists_app. intros [h|[h|h]]; [exact (Q5 h)| |].
      - destruct Hc as [->|(x & ->)]; [inversion h|]. inversion h as [? ? K|? ? K]; [exact K|inversion K].
      - destruct Hl' as [->|(a & m & b & ->)]; [inversion h|]. inversion h as [? ? K|? ? K]; [exact K|]. inversion K as [? ? K1|? ? K1]; [exact K1|inversion K1]. }
    assert (Sc : services c = []) by (destruct Hc as [->|(x & ->)]; reflexivity).
    assert (Sl : services l' = []) by (destruct Hl' as [->|(a & m & b & ->)]; reflexivity).
    assert (PC : Forall no_wait (ls ++ c)).
    { apply Forall_app. split; [exact PN|]. destruct Hc as [->|(x & ->)]; repeat constructor. }
    split; [rewrite Ep; exact Gs|]. split; [rewrite !services_app, Q1, Sc, Sl, !app_nil_r; reflexivity|].
    split; [rewrite Ex; split; [auto|intros [h|h]; [exact h|destruct (NH (asks_handler _ h))]]|].
    intros l1 at_ w' m l2 El. split; [exact NH|]. split; [exact Ex|]. rewrite app_assoc in El.
    destruct Hl' as [->|(a & m' & b & ->)]; [rewrite app_nil_r in El; destruct (no_wait_split _ _ _ _ _ _ PC El)|].
    destruct (split_wait _ _ _ _ _ _ _ _ _ _ PC El) as (-> & ->).
    split; [rewrite services_app, Q1, Sc, app_nil_r; reflexivity|]. rewrite Ep. split.
    - intros i q Hq Ho. apply (I1 i q); [|exact Hq|exact Ho]. pose proof (nth_lt _ _ _ Hq) as Lt. rewrite Q4, arrive_length in Lt. lia.
    - intros x Hx. destruct (I2 x Hx) as (q & _ & K1 & K2). exists q. auto. }
  destruct (0 <? I).
  - destruct (I <=? s32 (tick (l_now s + t_d1 t) - l_last s)).
    + destruct (pipes_do (h_ops (t_poll t)) ps) as [ps1| | | |] eqn:Eo; try discriminate. injection E as <- <-. cbn [l_pipes l_exit].
      split; [exact (good_do _ _ _ _ Gs Eo)|]. split; [rewrite services_app, Q1; cbn; rewrite app_nil_r; reflexivity|]. split.
      * rewrite orb_true_iff, Q3, Exists_app. split.
        -- intros [[h|h]|h]; [now left|right; now left|]. right. right. right. right. left. rewrite h. exact Logic.I.
        -- intros [h|[h|h]]; [auto|auto|]. inversion h as [? ? K|? ? K]; [destruct K|]. inversion K as [? ? K1|? ? K1]; [destruct K1|].
           inversion K1 as [? ? K2|? ? K2]; [|inversion K2]. right. cbn in K2. destruct (h_exit (t_poll t)); [reflexivity|destruct K2].
      * intros l1 at_ w' m l2 El. exfalso. refine (no_wait_split _ _ _ _ _ _ _ El). apply Forall_app. split; [exact PN|repeat constructor].
    + destruct did.
      * injection E as <- <-. cbn [l_pipes l_exit]. split; [exact Gs|]. split; [rewrite services_app, Q1; cbn; rewrite app_nil_r; reflexivity|]. split.
        -- rewrite Q3, Exists_app. pose proof (Nin (l_now s + t_d1 t)). tauto.
        -- intros l1 at_ w' m l2 El. exfalso. refine (no_wait_split _ _ _ _ _ _ _ El). apply Forall_app. split; [exact PN|repeat constructor].
      * destruct (loop_wait I t w (mkL ps ex (l_last s) (l_now s + t_d1 t))) as [l' r'] eqn:Ew. injection E as <- ->.
        apply (Quiet eq_refl [LClock (l_now s + t_d1 t)] l' (or_intror (ex_intro _ _ eq_refl)) eq_refl eq_refl).
  - destruct did.
    + injection E as <- <-. cbn [l_pipes l_exit]. split; [exact Gs|]. split; [exact Q1|]. split; [exact Q3|].
      intros l1 at_ w' m l2 El. destruct (no_wait_split _ _ _ _ _ _ PN El).
    + destruct (loop_wait I t w (mkL ps ex (l_last s) (l_now s + t_d1 t))) as [l' r'] eqn:Ew. injection E as <- ->.
      apply (Quiet eq_refl [] l' (or_introl eq_refl) eq_refl eq_refl).
Qed.

(** ** Whole runs *)
Lemma turns_snoc I ts t : forall s, loop_turns I (ts ++ [t]) s =
  match loop_turns I ts s with
  | (l, Ok s') => if l_exit s' then (l, Ok s') else let (l', r) := loop_turn I t s' in (l ++ l', r)
  | x => x
  end.
Proof.
  induction ts as [|u ts IH]; intros s; cbn [app loop_turns].
  - destruct (l_exit s); [reflexivity|]. destruct (loop_turn I t s) as [l [x| | | |]]; rewrite ?app_nil_r; reflexivity.
  - destruct (l_exit s) eqn:Ex; [rewrite Ex; reflexivity|]. destruct (loop_turn I u s) as [l [x| | | |]]; try reflexivity.
    rewrite IH. destruct (loop_turns I ts x) as [l1 [y| | | |]]; try reflexivity.
    destruct (l_exit y); [reflexivity|]. destruct (loop_turn I t y) as [l2 r2]. rewrite app_assoc. reflexivity.
Qed.
Lemma turns_good ms I ts : forall s l s', good ms (l_pipes s) -> loop_turns I ts s = (l, Ok s') ->
  good ms (l_pipes s') /\ (l_exit s' = true <-> l_exit s = true \/ Exists asks_to_end l) /\
  exists k, (k <= length ts)%nat /\ (l_exit s' = false -> k = length ts) /\ services l = concat (repeat (List.seq 0 (length ms)) k).
Proof.
  induction ts as [|t ts IH] using rev_ind; intros s l s' G E.
  - cbn in E. injection E as <- <-. split; [exact G|]. split; [split; [auto|intros [h|h]; [exact h|inversion h]]|].
    exists 0%nat. cbn. auto.
  - rewrite turns_snoc in E. destruct (loop_turns I ts s) as [l1 [s1| | | |]] eqn:E1; try discriminate.
    destruct (IH _ _ _ G E1) as (G1 & X1 & k & K1 & K2 & K3).
    destruct (l_exit s1) eqn:Ex.
    + injection E as <- <-. split; [exact G1|]. rewrite Ex. split; [exact X1|]. exists k. rewrite app_length. split; [lia|]. split; [discriminate|exact K3].
    + destruct (loop_turn I t s1) as [l2 r2] eqn:E2. injection E as <- ->.
      destruct (turn_ok ms I t s1 l2 s' G1 E2) as (G2 & S2 & X2 & _). split; [exact G2|]. split.
      * rewrite X2, Exists_app. rewrite Ex. split; [intros [h|h]; [discriminate|auto]|].
        intros [h|[h|h]]; [assert (false = true) by (apply X1; auto); discriminate|assert (false = true) by (apply X1; auto); discriminate|auto].
      * exists (S k). rewrite app_length. cbn [length]. rewrite (K2 eq_refl). split; [lia|]. split; [lia|].
        rewrite services_app, K3, S2, (proj1 G1), <- (K2 eq_refl). rewrite <- (Nat.add_1_r k), repeat_app, concat_app. cbn [repeat concat].
        rewrite app_nil_r. reflexivity.
Qed.
Lemma run_fair I ms start ts l s : loop_run I (opened ms) start ts = (l, Ok s) ->
  exists k, (k <= length ts)%nat /\ (~ Exists asks_to_end l -> k = length ts) /\ services l = concat (repeat (List.seq 0 (length ms)) k).
Proof.
  intros E. destruct (turns_good ms I ts (mkL (opened ms) false (tick start) start) l s (good_opened ms) E) as (_ & X & k & K1 & K2 & K3). exists k.
  split; [exact K1|]. split; [|exact K3]. intros N. apply K2. destruct (l_exit s); [|reflexivity].
  destruct (proj1 X eq_refl) as [h|h]; [discriminate|destruct (N h)].
Qed.

Lemma snoc_split {A} (l l' l1 : list A) x y : l ++ l' = l1 ++ [x; y] ->
  l' = [] \/ l' = [y] \/ exists l2, l' = l2 ++ [x; y] /\ l1 = l ++ l2.
Proof.
  intros E. revert E. induction l' as [|z a _] using rev_ind; intros E; [now left|]. right.
  change [x; y] with ([x] ++ [y]) in E. rewrite !app_assoc in E. apply app_inj_tail in E. destruct E as (E & ->).
  revert E. induction a as [|u b _] using rev_ind; intros E; [now left|]. right.
  rewrite app_assoc in E. apply app_inj_tail in E. destruct E as (<- & ->). exists b. split; [rewrite <- app_assoc; reflexivity|reflexivity].
Qed.
Lemma run_rest I ms start ts l1 at_ w m b s : ms <> [] -> loop_run I (opened ms) start ts = (l1 ++ [LWait at_ w m; LWake b], Ok s) ->
  (exists l0 lt, l1 = l0 ++ lt /\ ~ Exists is_handler lt /\ services lt = List.seq 0 (length ms)) /\
  (forall i q, nth_error (l_pipes s) i = Some q -> np_open q = true -> at_rest w i q) /\
  (forall x, In x w -> exists q, nth_error (l_pipes s) (fst x) = Some q /\ np_open q = true).
Proof.
  intros Hm. unfold loop_run. set (s0 := mkL _ _ _ _). assert (G0 : good ms (l_pipes s0)) by apply good_opened. clearbody s0.
  revert l1 at_ w m b s. induction ts as [|t ts IH] using rev_ind; intros l1 at_ w m b s E.
  - cbn in E. injection E as E _. destruct l1; discriminate.
  - rewrite turns_snoc in E. destruct (loop_turns I ts s0) as [la [s1| | | |]] eqn:E1; try discriminate.
    destruct (l_exit s1); [injection E as -> ->; exact (IH _ _ _ _ _ _ eq_refl)|].
    destruct (loop_turn I t s1) as [l2 r2] eqn:E2. assert (Er : r2 = Ok s) by congruence. subst r2.
    assert (El : la ++ l2 = l1 ++ [LWait at_ w m; LWake b]) by congruence. clear E IH.
    destruct (turns_good ms I ts _ _ _ G0 E1) as (G1 & _).
    destruct (turn_ok ms I t s1 l2 s G1 E2) as (G2 & S2 & _ & R). rewrite (proj1 G1) in S2, R.
    assert (Ne : services l2 <> []) by (rewrite S2; destruct ms; [congruence|discriminate]).
    destruct (snoc_split _ _ _ _ _ El) as [->|[->|(l3 & -> & ->)]]; [destruct (Ne eq_refl)|destruct (Ne eq_refl)|].
    destruct (R l3 at_ w m [LWake b] eq_refl) as (A1 & _ & A3 & A4 & A5).
    split; [|split; [exact A4|exact A5]]. exists la, l3. split; [reflexivity|]. split; [|exact A3].
    intros h. apply A1. apply Exists_app. now left.
Qed.

Lemma turns_exit I ts2 : forall ts s l s', loop_turns I ts s = (l, Ok s') -> l_exit s' = true -> loop_turns I (ts ++ ts2) s = (l, Ok s').
Proof.
  induction ts2 as [|t ts2 IH]; intros ts s l s' E X; [rewrite app_nil_r; exact E|].
  change (t :: ts2) with ([t] ++ ts2). rewrite app_assoc. apply IH; [|exact X]. rewrite turns_snoc, E, X. reflexivity.
Qed.
Lemma is_wait_split l : Exists is_wait l -> exists l1 a w m l2, l = l1 ++ LWait a w m :: l2.
Proof.
  intros H. apply Exists_exists in H. destruct H as (x & Hx & K). apply in_split in Hx. destruct Hx as (l1 & l2 & ->).
  destruct x; destruct K. eauto 10.
Qed.
Lemma run_exit I ms start ts l s l1 e l2 : loop_run I (opened ms) start ts = (l, Ok s) -> l = l1 ++ e :: l2 -> asks_to_end e ->
  ~ Exists is_wait l2 /\ (length (services l2) <= length ms)%nat /\
  forall ts2, loop_run I (opened ms) start (ts ++ ts2) = (l, Ok s).
Proof.
  intros E El A.
  assert (X : l_exit s = true).
  { destruct (turns_good ms I ts (mkL (opened ms) false (tick start) start) l s (good_opened ms) E) as (_ & X & _). apply X. right. rewrite El. apply Exists_app. right. left. exact A. }
  split; [|split; [|intros ts2; exact (turns_exit I ts2 ts _ l s E X)]].
  - (* by the last turn *)
    clear X. revert E El. unfold loop_run. set (s0 := mkL _ _ _ _). assert (G0 : good ms (l_pipes s0)) by apply good_opened. clearbody s0.
    revert l s l2. induction ts as [|t ts IH] using rev_ind; intros l s l2 E El.
    + cbn in E. injection E as <- _. destruct l1; discriminate.
    + rewrite turns_snoc in E. destruct (loop_turns I ts s0) as [la [s1| | | |]] eqn:E1; try discriminate.
      destruct (turns_good ms I ts _ _ _ G0 E1) as (G1 & X1 & _).
      destruct (l_exit s1) eqn:Ex; [injection E as <- <-; exact (IH _ _ _ eq_refl El)|].
      destruct (loop_turn I t s1) as [lb r2] eqn:E2. assert (Er : r2 = Ok s) by congruence. subst r2.
      assert (El' : la ++ lb = l1 ++ e :: l2) by congruence.
      destruct (turn_ok ms I t s1 lb s G1 E2) as (_ & _ & _ & R).
      assert (NA : ~ Exists asks_to_end la) by (intros h; assert (false = true) by (apply X1; auto); discriminate).
      destruct (app_eq_app _ _ _ _ El') as (m & [(-> & H2)|(-> & H2)]).
      * destruct m as [|y m]; cbn [app] in H2.
        -- subst lb. intros h. destruct (is_wait_split _ h) as (a1 & a & w & mm & a2 & ->).
           destruct (R (e :: a1) a w mm a2 eq_refl) as (K & _). apply K. left. destruct e; try destruct A; exact Logic.I.
        -- injection H2 as <- ->. destruct NA. apply Exists_app. right. left. exact A.
      * intros h. destruct (is_wait_split _ h) as (a1 & a & w & mm & a2 & ->). subst lb.
        destruct (R (m ++ e :: a1) a w mm a2) as (K & _); [rewrite <- app_assoc; reflexivity|].
        apply K. apply Exists_app. right. left. destruct e; try destruct A; exact Logic.I.
  - clear X. revert E El. unfold loop_run. set (s0 := mkL _ _ _ _). assert (G0 : good ms (l_pipes s0)) by apply good_opened. clearbody s0.
    revert l s l2. induction ts as [|t ts IH] using rev_ind; intros l s l2 E El.
    + cbn in E. injection E as <- _. destruct l1; discriminate.
    + rewrite turns_snoc in E. destruct (loop_turns I ts s0) as [la [s1| | | |]] eqn:E1; try discriminate.
      destruct (turns_good ms I ts _ _ _ G0 E1) as (G1 & X1 & _).
      destruct (l_exit s1) eqn:Ex; [injection E as <- <-; exact (IH _ _ _ eq_refl El)|].
      destruct (loop_turn I t s1) as [lb r2] eqn:E2. assert (Er : r2 = Ok s) by congruence. subst r2.
      assert (El' : la ++ lb = l1 ++ e :: l2) by congruence.
      destruct (turn_ok ms I t s1 lb s G1 E2) as (_ & S2 & _ & _).
      assert (NA : ~ Exists asks_to_end la) by (intros h; assert (false = true) by (apply X1; auto); discriminate).
      assert (SL : forall m, lb = m ++ e :: l2 -> (length (services l2) <= length ms)%nat).
      { intros m ->. apply (f_equal (@length nat)) in S2. rewrite seq_length, (proj1 G1), services_app, app_length in S2.
        change (e :: l2) with ([e] ++ l2) in S2. rewrite services_app, app_length in S2. lia. }
      destruct (app_eq_app _ _ _ _ El') as (m & [(-> & H2)|(-> & H2)]).
      * destruct m as [|y m]; cbn [app] in H2; [exact (SL [] (eq_sym H2))|].
        injection H2 as <- ->. destruct NA. apply Exists_app. right. left. exact A.
      * exact (SL m H2).
Qed.

(** ** No failure *)
Lemma do_ok ms ops : forall ps, good ms ps ->
  Forall (fun x => exists c r w, nth_error ms (fst x) = Some (c, r, w) /\ legal r w (snd x)) ops -> exists qs, pipes_do ops ps = Ok qs.
Proof.
  induction ops as [|[i o] ops IH]; intros ps G F; cbn [pipes_do]; [eauto|].
  inversion F as [|? ? (c & r & w & F1 & F2) F3]; subst. cbn [fst snd] in *.
  destruct (nth_error ps i) as [p|] eqn:Ep; [|apply nth_error_None in Ep; pose proof (nth_lt _ _ _ F1); destruct G; lia].
  destruct (proj2 G _ _ Ep) as (W & c' & Ec). assert (Er : np_reading p = r /\ np_writing p = w) by (split; congruence).
  destruct Er as (<- & <-). destruct (pstep_ok p o W F2) as ((q & d) & Es). rewrite Es. cbn [bind].
  destruct (step_wf p o q d W Es) as (W' & M). exact (IH _ (good_put _ _ _ _ _ G Ep W' M) F3).
Qed.
Lemma service_ok ms f : (forall i, full_writes (fst (f i)) /\ respects ms (snd (f i))) -> forall k i ps ex, good ms ps -> (i + k <= length ms)%nat ->
  exists l x, service_all f k i ps ex = (l, Ok x).
Proof.
  intros F. induction k as [|k IH]; intros i ps ex G L; cbn [service_all]; [eauto|].
  destruct (nth_error ps i) as [p|] eqn:Ep; [|apply nth_error_None in Ep; destruct G; lia].
  destruct (proj2 G _ _ Ep) as (W & _). destruct (serviceIo_ok (fst (f i)) p W (proj1 (F i))) as ((did & q) & Es). rewrite Es.
  destruct (service_wf _ _ _ _ W Es) as (W' & M). pose proof (good_put _ _ _ _ _ G Ep W' M) as G1.
  destruct did.
  - destruct (do_ok ms (h_ops (snd (f i))) _ G1 (proj2 (F i))) as (qs & Eq). rewrite Eq.
    destruct (IH (S i) qs (ex || h_exit (snd (f i))) (good_do _ _ _ _ G1 Eq) ltac:(lia)) as (l & x & ->). destruct x as [[[a b] c] d]. cbn [bind]. eauto.
  - destruct (IH (S i) _ ex G1 ltac:(lia)) as (l & x & ->). destruct x as [[[a b] c] d]. cbn [bind]. eauto.
Qed.
Lemma run_ok I ms start ts l r : 0 < I -> Forall (sound_turn ms) ts -> loop_run I (opened ms) start ts = (l, r) -> exists s, r = Ok s.
Proof.
  intros HI F. unfold loop_run. set (s0 := mkL _ _ _ _). assert (G0 : good ms (l_pipes s0)) by apply good_opened. clearbody s0.
  revert s0 G0 l r. induction F as [|t ts (T1 & T2 & T3) _ IH]; intros s0 G0 l r E; cbn [loop_turns] in E; [injection E as _ <-; eauto|].
  destruct (l_exit s0); [injection E as _ <-; eauto|].
  assert (K : exists l1 s1, loop_turn I t s0 = (l1, Ok s1)).
  { unfold loop_turn. pose proof (good_arrive ms (t_peer t) _ G0) as Ga.
    destruct (service_ok ms (t_pipe t) T3 (length (l_pipes s0)) 0 _ (l_exit s0) Ga ltac:(destruct G0; lia)) as (ls & x & Es). rewrite Es.
    pose proof (good_service ms _ _ _ _ _ _ _ Ga Es) as Gs. destruct x as [[[ps ex] did] w].
    destruct (Z.ltb_spec 0 I) as [_|h]; [|lia]. destruct (I <=? _).
    - destruct (do_ok ms _ _ Gs T2) as (qs & ->). eauto.
    - destruct did; [eauto|]. unfold loop_wait. destruct (Z.ltb_spec 0 I) as [_|h]; [|lia]. rewrite T1. destruct w as [|y w]; [|eauto].
      match goal with |- context [if ?b then (_ ++ _, _) else _] => destruct b end; eauto. }
  destruct K as (l1 & s1 & K). rewrite K in E. destruct (loop_turns I ts s1) as [l2 r2] eqn:E2. injection E as _ <-.
  refine (IH s1 _ _ _ E2). exact (proj1 (turn_ok ms I t s0 l1 s1 G0 K)).
Qed.
