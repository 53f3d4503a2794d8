(** Prop_Left.v -- C103: nothing left in the frame buffer gets out *)
From Verif Require Import SpecLeft LLeft Demo.

Lemma buffer_255 E w : reachable E w -> length (buffer w) = 255%nat.
Proof.
  intros (ops & tr & _ & X). destruct (h_exec E true world0 ops tr w X (zeros 255)) as (f1 & _ & A & _); [repeat split; reflexivity|left; reflexivity|]. exact A.
Qed.

(** Whatever bytes are in the buffer, an execution goes the same way: same results, same
    external calls (frames sent, what the crypto functions are asked, what the handlers are
    given), same state besides the buffer -- if no empty packet is read. *)
Theorem C103_leftovers_partial E w ops tr w1 f : reachable E w -> exec E w ops tr w1 -> length f = 255%nat -> no_empty (all_evs tr) ->
  exists f1, exec E (left_over f w) ops tr (left_over f1 w1) /\ length f1 = 255%nat.
Proof.
  intros R X L K. destruct (h_exec E false w ops tr w1 X f) as (f1 & X1 & A & B & _); [|right; exact K|exists f1; auto].
  split; [apply (buffer_255 _ _ R)|]. split; [exact L|]. cbn. lia.
Qed.
Print Assumptions C103_leftovers_partial.
(** With empty packets only the first byte left in the buffer matters. *)
Theorem C103_first_byte_partial E w ops tr w1 f : reachable E w -> exec E w ops tr w1 -> length f = 255%nat -> hd 0 f = hd 0 (buffer w) ->
  exists f1, exec E (left_over f w) ops tr (left_over f1 w1) /\ length f1 = 255%nat.
Proof.
  intros R X L K. destruct (h_exec E true w ops tr w1 X f) as (f1 & X1 & A & B & _); [|left; reflexivity|exists f1; auto].
  split; [apply (buffer_255 _ _ R)|]. split; [exact L|]. cbn. intros i Hi. assert (i = 0%nat) by lia. subst i. destruct f, (buffer w); cbn in K |- *; congruence.
Qed.
Print Assumptions C103_first_byte_partial.
(** It does matter: handle_downlink takes the message type it reports from uw_frame[0]
    although nothing was received (src/stack.c:431). The device has sent an unconfirmed or a
    confirmed frame; an empty packet arrives; the application is told the type of its own
    uplink. *)
Definition sent (c : bool) : list op := abp 3 7 ++ [OSend 1 [7] c; OIrq 4; OTimer TIMER_RX1].
Definition told (E : env) (w : world) : option (err * Z) :=
  match step E w (OIrq 2) with
  | Some (_, es, _) => match filter (fun e => match e with CbDown _ _ _ => true | _ => false end) es with [CbDown e m _] => Some (e, m) | _ => None end
  | None => None
  end.
Theorem C103_empty_packet_refuted : exists E w f, env_ok E /\ reachable E w /\ length f = 255%nat /\ told E w <> told E (left_over f w) /\ told E w <> None /\ told E (left_over f w) <> None.
Proof.
  exists (demo [] [([], 5)]), (after (demo [] [([], 5)]) (sent false)), (buffer (after (demo [] [([], 5)]) (sent true))).
  split; [apply demo_ok|]. split; [apply after_reach; vm_compute; reflexivity|]. split; [vm_compute; reflexivity|]. split; [vm_compute; discriminate|]. split; vm_compute; discriminate.
Qed.
Print Assumptions C103_empty_packet_refuted.
Example C103_told_case : told (demo [] [([], 5)]) (after (demo [] [([], 5)]) (sent false)) = Some (ERR_MSG_LEN, 2) /\ told (demo [] [([], 5)]) (after (demo [] [([], 5)]) (sent true)) = Some (ERR_MSG_LEN, 4).
Proof. vm_compute. split; reflexivity. Qed.

(** A device that has received and decrypted a message sends two frames and hears a packet
    in between; all bytes of the message are still in the buffer at the start. *)
Definition left_env : env := demo [] [([96; 239; 190; 173; 222; 0; 8; 0; 5; 1; 2; 3; 4; 5; 6; 7], 5); ([96; 1; 2], 5)].
Definition left_w : world := after left_env (sent false ++ [OIrq 2]).
Definition left_ops : list op := [OSend 3 [1; 2; 3] true; OIrq 4; OTimer TIMER_RX1; OIrq 2; OSend 3 [] false; OSend 3 (repeat 9 20) false].
Example C103_case : exists tr w1, reachable left_env left_w /\ exec left_env left_w left_ops tr w1 /\ length (repeat 77 255) = 255%nat /\ no_empty (all_evs tr) /\
  hd 0 (repeat 77 255) <> hd 0 (buffer left_w) /\ length (tx_frames (all_evs tr)) = 2%nat.
Proof.
  destruct (run left_env left_w left_ops) as [[tr w1]|] eqn:R; [|vm_compute in R; discriminate R]. exists tr, w1.
  split; [apply after_reach; vm_compute; reflexivity|]. split; [apply run_exec, R|]. split; [reflexivity|].
  vm_compute in R. injection R as <- <-. split; [intros rx H; cbn in H; repeat (destruct H as [H|H]; [try discriminate H; injection H as <-; discriminate|]); destruct H|].
  split; [vm_compute; discriminate|vm_compute; reflexivity].
Qed.
(** an empty packet, all bytes but the first other ones *)
Example C103_first_byte_case : exists tr w1, let E := demo [] [([], 5)] in let w := after E (sent true) in
  reachable E w /\ exec E w [OIrq 2; OSend 3 [1; 2; 3] true] tr w1 /\ length (128 :: repeat 77 254) = 255%nat /\ hd 0 (128 :: repeat 77 254) = hd 0 (buffer w) /\ (2 < length (all_evs tr))%nat.
Proof.
  destruct (run (demo [] [([], 5)]) (after (demo [] [([], 5)]) (sent true)) [OIrq 2; OSend 3 [1; 2; 3] true]) as [[tr w1]|] eqn:R; [|vm_compute in R; discriminate R]. exists tr, w1. cbv zeta.
  split; [apply after_reach; vm_compute; reflexivity|]. split; [apply run_exec, R|]. split; [reflexivity|]. split; [vm_compute; reflexivity|]. vm_compute in R. injection R as <- <-. vm_compute. lia.
Qed.
