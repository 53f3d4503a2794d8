(** PDrv6.v -- the primitives of src/device/sx126x.c as transactions *)
From Verif Require Export PDrv.
From Verif Require Export Sx126x.

(** what precedes a command: the wake-up sequence if the chip sleeps, and waiting *)
Definition lead (asleep : bool) (l : list item) : Prop :=
  if asleep then exists x y, mosi x = [192; 0] /\ mosi y = [128; 0] /\ l = [Tr x; Do HWaitBusy; Tr y; Do HWaitBusy]
  else l = [Do HWaitBusy].
Lemma lead_chip b l c rest : lead b l -> chip126 c (l ++ rest) = chip126 c rest.
Proof.
  destruct b; cbn [lead].
  - intros (x & y & Hx & Hy & ->). unfold chip126. cbn [app fold_left item126]. rewrite Hx, Hy. reflexivity.
  - intros ->. reflexivity.
Qed.
Lemma lead_ok b l : lead b l -> Forall item_ok l.
Proof.
  destruct b; cbn [lead].
  - intros (x & y & Hx & Hy & ->). repeat constructor; cbn; intros ->; discriminate.
  - intros ->. repeat constructor.
Qed.
Definition pw_of (asleep : bool) (p : pw) : Prop := if asleep then p = Cold true else exists b, p = Awake b.
Lemma lead_pw b l p rest : lead b l -> pw_of b p -> pw_run p (l ++ rest) = pw_run (Awake true) rest.
Proof.
  destruct b; cbn [lead pw_of].
  - intros (x & y & Hx & Hy & ->) ->. cbn [app pw_run pw_see]. rewrite Hx. cbn [app pw_run pw_see]. rewrite Hy. reflexivity.
  - intros -> (b & ->). reflexivity.
Qed.
Lemma lead_ans b l cmd : lead b l -> cmd <> 192 -> cmd <> 128 -> answers126 cmd l = [].
Proof.
  destruct b; cbn [lead].
  - intros (x & y & Hx & Hy & ->) N1 N2. destruct x as [|[x0 x1] [|[x2 x3] [|]]]; try discriminate. destruct y as [|[y0 y1] [|[y2 y3] [|]]]; try discriminate.
    injection Hx as -> ->. injection Hy as -> ->. cbn [answers126 flat_map app miso map]. rewrite !(proj2 (Z.eqb_neq _ _)) by lia. reflexivity.
  - intros -> _ _. reflexivity.
Qed.
Lemma lead_buf b l : lead b l -> buffer126 l = [] /\ cleared126 l = [] /\ user_calls l = [].
Proof.
  destruct b; cbn [lead].
  - intros (x & y & Hx & Hy & ->). destruct x as [|[x0 x1] [|[x2 x3] [|]]]; try discriminate. destruct y as [|[y0 y1] [|[y2 y3] [|]]]; try discriminate.
    injection Hx as -> ->. injection Hy as -> ->. repeat split.
  - intros ->. repeat split.
Qed.

Section Prims.
Context (H : henv) (HH : henv_ok H).
Local Notation on s := (exists o, b_hal s = Some o).
Definition awake (s : d126) : d126 := set_b_sleep false s.

Lemma wp_deref h s (Q : hal_opts -> d126 -> list item -> Prop) o : b_hal s = Some o -> Q o s [] -> wp deref h s Q.
Proof. intros Ho HQ. unfold deref. apply wp_bind, wp_gets. rewrite Ho. apply wp_ret. exact HQ. Qed.
Lemma wp_wait h s (Q : unit -> d126 -> list item -> Prop) : on s -> Q tt s [Do HWaitBusy] -> wp wait_busy_on h s Q.
Proof. intros (o & Ho) HQ. unfold wait_busy_on. apply wp_bind, (wp_deref _ _ _ o Ho). apply wp_emit; [reflexivity|exact HQ]. Qed.
(** a window of two bytes *)
Lemma wp_window2 a d h s (Q : unit -> d126 -> list item -> Prop) : (forall x, mosi x = [a; d] -> Q tt s [Tr x]) ->
  wp (emit (HSelect true) ;;; xfer H a ;;; xfer H d ;;; emit (HSelect false)) h s Q.
Proof.
  intro HQ. set (b1 := h_xfer H (unparse h ++ [HSelect true]) a). set (b2 := h_xfer H (unparse h ++ [HSelect true; HXfer a b1]) d).
  exists tt, s, [Tr [(a, b1); (d, b2)]]. split.
  - unfold bind, emit, xfer, query. rewrite <- ?app_assoc. cbn [app]. fold b1. fold b2. reflexivity.
  - split; [constructor; [discriminate|constructor]|]. apply HQ. reflexivity.
Qed.
Lemma wp_check h s (Q : unit -> d126 -> list item -> Prop) : on s -> (forall l, lead (b_sleep s) l -> Q tt (awake s) l) -> wp (check_device H) h s Q.
Proof.
  intros (o & Ho) HQ. unfold check_device. apply wp_bind, wp_gets. destruct (b_sleep s) eqn:Es.
  - apply wp_bind.
    apply (wp_ext (deref ;;; ((emit (HSelect true) ;;; xfer H CMD_GET_STATUS ;;; xfer H 0 ;;; emit (HSelect false)) ;;;
      (wait_busy_on ;;; ((emit (HSelect true) ;;; xfer H CMD_SET_STANDBY ;;; xfer H 0 ;;; emit (HSelect false)) ;;; modify (set_b_sleep false)))))).
    { intros h' s0. apply bind_ext. intros _ h1 s1. rewrite bind_assoc. apply bind_ext. intros _ h2 s2. rewrite bind_assoc. apply bind_ext. intros _ h3 s3. rewrite bind_assoc. apply bind_ext. intros _ h4 s4.
      apply bind_ext. intros _ h5 s5. apply bind_ext. intros _ h6 s6. rewrite bind_assoc. apply bind_ext. intros _ h7 s7. rewrite bind_assoc. apply bind_ext. intros _ h8 s8. rewrite bind_assoc. reflexivity. }
    apply wp_bind, (wp_deref _ _ _ o Ho). apply wp_bind, wp_window2. intros x Hx. apply wp_bind, wp_wait; [exists o; exact Ho|].
    apply wp_bind, wp_window2. intros y Hy. apply wp_modify. apply wp_wait; [exists o; exact Ho|]. apply HQ. cbn [lead]. exists x, y. auto.
  - apply wp_bind, wp_ret. apply wp_wait; [exists o; exact Ho|]. replace s with (awake s) by (destruct s; cbn in Es; subst; reflexivity). apply HQ. reflexivity.
Qed.
(** windows sending [bs], and then reading [n] bytes *)
Lemma wp_out bs h s (Q : unit -> d126 -> list item -> Prop) : bs <> [] -> (forall x, mosi x = bs -> Q tt s [Tr x]) ->
  wp (emit (HSelect true) ;;; xfer_out H bs ;;; emit (HSelect false)) h s Q.
Proof.
  intros Hn HQ. destruct (xfer_out_run H bs (unparse h ++ [HSelect true]) s) as (rs & L & E).
  exists tt, s, [Tr (combine bs rs)]. split.
  - unfold bind, emit. rewrite E. unfold unparse. cbn [flat_map item_evs app]. rewrite app_nil_r. reflexivity.
  - split.
    + constructor; [|constructor]. cbn. destruct bs; [congruence|]. destruct rs; discriminate.
    + apply HQ. apply mosi_combine. exact L.
Qed.
Lemma wp_in bs n h s (Q : list Z -> d126 -> list item -> Prop) : bs <> [] ->
  (forall x y rs, mosi x = bs -> rs = miso y -> length rs = n -> bytes_ok rs -> mosi y = repeat 255 n -> Q rs s [Tr (x ++ y)]) ->
  wp (emit (HSelect true) ;;; xfer_out H bs ;;; r <- xfer_in H 255 n ;; emit (HSelect false) ;;; ret r) h s Q.
Proof.
  intros Hn HQ. destruct (xfer_out_run H bs (unparse h ++ [HSelect true]) s) as (rs & L & E).
  destruct (xfer_in_run H 255 HH n ((unparse h ++ [HSelect true]) ++ map (fun p => HXfer (fst p) (snd p)) (combine bs rs)) s) as (is_ & L2 & B & E2).
  exists is_, s, [Tr (combine bs rs ++ combine (repeat 255 n) is_)]. split.
  - unfold bind, emit, ret. rewrite E, E2. unfold unparse. cbn [flat_map item_evs app]. rewrite map_app, <- ?app_assoc. cbn [app]. rewrite ?app_nil_r. reflexivity.
  - assert (L3 : length is_ = length (repeat 255 n)) by (rewrite repeat_length; exact L2). split.
    + constructor; [|constructor]. cbn. destruct bs; [congruence|]. destruct rs; discriminate.
    + apply HQ; [apply mosi_combine; exact L|rewrite miso_combine by exact L3; reflexivity|exact L2|exact B|apply mosi_combine; exact L3].
Qed.

Lemma wp_write_command cmd buf h s (Q : unit -> d126 -> list item -> Prop) : on s ->
  (forall l x, lead (b_sleep s) l -> mosi x = cmd :: buf -> Q tt (awake s) (l ++ [Tr x])) -> wp (write_command H cmd buf) h s Q.
Proof.
  intros Ho HQ. unfold write_command. apply wp_bind, wp_check; [exact Ho|]. intros l Hl.
  apply (wp_ext (emit (HSelect true) ;;; xfer_out H (cmd :: buf) ;;; emit (HSelect false))).
  { intros h' s0. apply bind_ext. intros _ h1 s1. cbn [xfer_out]. rewrite bind_assoc. reflexivity. }
  apply wp_out; [discriminate|]. intros x Hx. apply HQ; assumption.
Qed.
Lemma wp_write_registers addr vs h s (Q : unit -> d126 -> list item -> Prop) : on s ->
  (forall l x, lead (b_sleep s) l -> mosi x = 13 :: Z.shiftr addr 8 :: Z.land addr 255 :: vs -> Q tt (awake s) (l ++ [Tr x])) -> wp (write_registers H addr vs) h s Q.
Proof.
  intros Ho HQ. unfold write_registers. apply wp_bind, wp_check; [exact Ho|]. intros l Hl.
  apply (wp_ext (emit (HSelect true) ;;; xfer_out H (13 :: Z.shiftr addr 8 :: Z.land addr 255 :: vs) ;;; emit (HSelect false))).
  { intros h' s0. apply bind_ext. intros _ h1 s1. cbn [xfer_out addr_bytes]. rewrite bind_assoc. apply bind_ext. intros _ h2 s2. rewrite !bind_assoc. apply bind_ext. intros _ h3 s3.
    rewrite !bind_assoc. apply bind_ext. intros _ h4 s4. rewrite bind_ret_l. reflexivity. }
  apply wp_out; [discriminate|]. intros x Hx. apply HQ; assumption.
Qed.
Lemma wp_write_register addr v h s (Q : unit -> d126 -> list item -> Prop) : on s ->
  (forall l x, lead (b_sleep s) l -> mosi x = [13; Z.shiftr addr 8; Z.land addr 255; v] -> Q tt (awake s) (l ++ [Tr x])) -> wp (write_register H addr v) h s Q.
Proof.
  intros Ho HQ. apply (wp_ext (write_registers H addr [v])); [|apply wp_write_registers; assumption].
  intros h' s0. unfold write_registers, write_register. apply bind_ext. intros _ h1 s1. apply bind_ext. intros _ h2 s2. apply bind_ext. intros _ h3 s3. apply bind_ext. intros _ h4 s4.
  cbn [xfer_out]. rewrite bind_assoc. apply bind_ext. intros a h5 s5. rewrite bind_ret_l. reflexivity.
Qed.
Lemma wp_write_buffer off vs h s (Q : unit -> d126 -> list item -> Prop) : on s ->
  (forall l x, lead (b_sleep s) l -> mosi x = 14 :: off :: vs -> Q tt (awake s) (l ++ [Tr x])) -> wp (write_buffer H off vs) h s Q.
Proof.
  intros Ho HQ. unfold write_buffer. apply wp_bind, wp_check; [exact Ho|]. intros l Hl.
  apply (wp_ext (emit (HSelect true) ;;; xfer_out H (14 :: off :: vs) ;;; emit (HSelect false))).
  { intros h' s0. apply bind_ext. intros _ h1 s1. cbn [xfer_out]. rewrite bind_assoc. apply bind_ext. intros _ h2 s2. rewrite !bind_assoc. reflexivity. }
  apply wp_out; [discriminate|]. intros x Hx. apply HQ; assumption.
Qed.
Definition rd (h : list item) (s : d126) (pre : list Z) (n : nat) (Q : list Z -> d126 -> list item -> Prop) : Prop :=
  forall l x y rs, lead (b_sleep s) l -> mosi x = pre -> rs = miso y -> length rs = n -> bytes_ok rs -> Q rs (awake s) (l ++ [Tr (x ++ y)]).
Lemma wp_read_command cmd n h s Q : on s -> rd h s [cmd; 255] n Q -> wp (read_command H cmd n) h s Q.
Proof.
  intros Ho HQ. unfold read_command. apply wp_bind, wp_check; [exact Ho|]. intros l Hl.
  apply (wp_ext (emit (HSelect true) ;;; xfer_out H [cmd; 255] ;;; r <- xfer_in H 255 n ;; emit (HSelect false) ;;; ret r)).
  { intros h' s0. apply bind_ext. intros _ h1 s1. cbn [xfer_out]. rewrite bind_assoc. apply bind_ext. intros _ h2 s2. rewrite !bind_assoc. apply bind_ext. intros _ h3 s3. rewrite bind_ret_l. reflexivity. }
  apply wp_in; [discriminate|]. intros x y rs Hx Hr Hn Hb _. eapply HQ; eassumption.
Qed.
Lemma wp_read_registers addr n h s Q : on s -> rd h s [29; Z.shiftr addr 8; Z.land addr 255; 255] n Q -> wp (read_registers H addr n) h s Q.
Proof.
  intros Ho HQ. unfold read_registers. apply wp_bind, wp_check; [exact Ho|]. intros l Hl.
  apply (wp_ext (emit (HSelect true) ;;; xfer_out H [29; Z.shiftr addr 8; Z.land addr 255; 255] ;;; r <- xfer_in H 255 n ;; emit (HSelect false) ;;; ret r)).
  { intros h' s0. apply bind_ext. intros _ h1 s1. cbn [xfer_out addr_bytes]. rewrite bind_assoc. apply bind_ext. intros _ h2 s2. rewrite !bind_assoc. apply bind_ext. intros _ h3 s3.
    rewrite !bind_assoc. apply bind_ext. intros _ h4 s4. rewrite !bind_ret_l, !bind_assoc. apply bind_ext. intros _ h5 s5. rewrite bind_ret_l. reflexivity. }
  apply wp_in; [discriminate|]. intros x y rs Hx Hr Hn Hb _. eapply HQ; eassumption.
Qed.
Lemma wp_read_register addr h s (Q : Z -> d126 -> list item -> Prop) : on s ->
  rd h s [29; Z.shiftr addr 8; Z.land addr 255; 255] 1 (fun r => Q (nth 0 r 0)) -> wp (read_register H addr) h s Q.
Proof.
  intros Ho HQ. apply (wp_ext (r <- read_registers H addr 1 ;; ret (nth 0 r 0))).
  { intros h' s0. unfold read_registers, read_register. rewrite bind_assoc. apply bind_ext. intros _ h1 s1. rewrite bind_assoc. apply bind_ext. intros _ h2 s2. rewrite bind_assoc. apply bind_ext. intros _ h3 s3.
    rewrite bind_assoc. apply bind_ext. intros _ h4 s4. rewrite bind_assoc. apply bind_ext. intros _ h5 s5. cbn [xfer_in]. rewrite !bind_assoc. apply bind_ext. intros b h6 s6.
    rewrite !bind_assoc, bind_ret_l, bind_ret_l, bind_assoc. apply bind_ext. intros _ h7 s7. rewrite bind_ret_l. reflexivity. }
  apply wp_bind, wp_read_registers; [exact Ho|]. intros l x y rs Hl Hx Hr Hn Hb. apply wp_ret. rewrite app_nil_r. eapply HQ; eassumption.
Qed.
Lemma wp_read_buffer off n h s Q : on s -> rd h s [30; off; 255] n Q -> wp (read_buffer H off n) h s Q.
Proof.
  intros Ho HQ. unfold read_buffer. apply wp_bind, wp_check; [exact Ho|]. intros l Hl.
  apply (wp_ext (emit (HSelect true) ;;; xfer_out H [30; off; 255] ;;; r <- xfer_in H 255 n ;; emit (HSelect false) ;;; ret r)).
  { intros h' s0. apply bind_ext. intros _ h1 s1. cbn [xfer_out]. rewrite bind_assoc. apply bind_ext. intros _ h2 s2. rewrite !bind_assoc. apply bind_ext. intros _ h3 s3.
    rewrite !bind_assoc. apply bind_ext. intros _ h4 s4. rewrite bind_ret_l. reflexivity. }
  apply wp_in; [discriminate|]. intros x y rs Hx Hr Hn Hb _. eapply HQ; eassumption.
Qed.
End Prims.
