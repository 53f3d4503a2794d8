(** SpecLeft.v -- what is left in the frame buffer (C103) *)
From Verif Require Export SpecTx.

(** the buffer uw_frame (src/stack.c:100), in which frames are built and received *)
Definition buffer (w : world) : list Z := uw_frame (s_stk (w_st w)).
(** the same device with other bytes left in it *)
Definition left_over (f : list Z) (w : world) : world := Mk_world (on_stk (set_uw_frame f) (w_st w)) (w_hist w).
(** no empty packet is read from the radio *)
Definition no_empty (es : list ev) : Prop := forall rx, In (RRead rx) es -> rx_data rx <> [].
