(** Drv.v -- the two radio drivers as machines: struct radio_dev
    (include/uwan/stack.h:166-179) with the entry points of src/device/sx126x.c:56-69
    and src/device/sx127x.c:74-87, called in any order. *)
From Verif Require Export Hal.
From Verif Require Sx126x Sx127x.

(** calls of the driver; for the SX127x the [opts] of init are ignored
    (src/device/sx127x.c:219) *)
Inductive rop :=
| PInit (hal : hal_opts) (opts : Sx126x.sx126x_opts)
| PSleep
| PFreq (f : Z)
| PPower (p : Z)
| PPublic (b : bool)
| PSetup (p : params)
| PTx (buf : list Z)
| PRx (n symb timeout : Z)
| PRead (cap : Z)
| PRand
| PIrq
| PHandler (non_null : bool).
Inductive rval := RvUnit | RvBool (b : bool) | RvNum (n : Z) | RvPkt (p : rxpkt).

(** the C types of the arguments; enumerations hold their enumerators
    (include/uwan/stack.h:50-76) *)
Definition params_wf (p : params) : Prop :=
  0 <= p_sf p <= 6 /\ 0 <= p_bw p <= 2 /\ 0 <= p_cr p <= 3 /\ 0 <= p_preamble_len p < 65536.
Definition rop_wf (o : rop) : Prop :=
  match o with
  | PInit _ d => 0 <= Sx126x.tcxo_timeout d < 65536 /\ is_byte (Sx126x.tcxo_voltage d)
  | PFreq f => 0 <= f < 4294967296
  | PPower p => -128 <= p < 128
  | PSetup p => params_wf p
  | PTx buf => bytes_ok buf /\ len buf <= 255
  | PRx n symb t => is_byte n /\ 0 <= symb < 65536 /\ 0 <= t < 4294967296
  | PRead cap => is_byte cap
  | _ => True
  end.

Section Lift.
  Context {S : Type}.
  Definition as_u (m : M S hev unit) : M S hev rval := m ;;; ret RvUnit.
  Definition as_b (m : M S hev bool) : M S hev rval := b <- m ;; ret (RvBool b).
  Definition as_n (m : M S hev Z) : M S hev rval := n <- m ;; ret (RvNum n).
  Definition as_p (m : M S hev rxpkt) : M S hev rval := p <- m ;; ret (RvPkt p).
End Lift.

(** src/device/sx127x.c:74-87 *)
Definition call127 (H : henv) (o : rop) : Sx127x.D127 rval :=
  match o with
  | PInit hal _ => as_b (Sx127x.sx127x_init H hal)
  | PSleep => as_u (Sx127x.sx127x_sleep H)
  | PFreq f => as_u (Sx127x.sx127x_set_freq H f)
  | PPower p => as_b (Sx127x.sx127x_set_power H p)
  | PPublic b => as_u (Sx127x.sx127x_set_public_network H b)
  | PSetup p => as_u (Sx127x.sx127x_setup H p)
  | PTx buf => as_u (Sx127x.sx127x_tx H buf)
  | PRx n symb t => as_u (Sx127x.sx127x_rx H n symb t)
  | PRead cap => as_p (Sx127x.sx127x_read_packet H cap)
  | PRand => as_n (Sx127x.sx127x_rand H)
  | PIrq => as_n (Sx127x.sx127x_irq_handler H)
  | PHandler b => as_u (Sx127x.sx127x_set_evt_handler b)
  end.
(** src/device/sx126x.c:56-69 *)
Definition call126 (H : henv) (o : rop) : Sx126x.D126 rval :=
  match o with
  | PInit hal opts => as_b (Sx126x.sx126x_init H (Some hal) (Some opts))
  | PSleep => as_u (Sx126x.sx126x_sleep H)
  | PFreq f => as_u (Sx126x.sx126x_set_freq H f)
  | PPower p => as_b (Sx126x.sx126x_set_power H p)
  | PPublic b => as_u (Sx126x.sx126x_set_public_network H b)
  | PSetup p => as_u (Sx126x.sx126x_setup H p)
  | PTx buf => as_u (Sx126x.sx126x_tx H buf)
  | PRx n symb t => as_u (Sx126x.sx126x_rx H n symb t)
  | PRead cap => as_p (Sx126x.sx126x_read_packet H cap)
  | PRand => as_n (Sx126x.sx126x_rand H)
  | PIrq => as_n (Sx126x.sx126x_irq_handler H)
  | PHandler b => as_u (Sx126x.sx126x_set_evt_handler b)
  end.

(** Executions: what was called, what it returned, the HAL calls it made; from the
    statics [s] and the history [h]. *)
Definition rentry : Type := rop * rval * list hev.
Inductive rexec {S : Type} (call : rop -> M S hev rval) : list hev -> S -> list rentry -> list hev -> S -> Prop :=
| rexec_nil h s : rexec call h s [] h s
| rexec_snoc h s tr h1 s1 o v s2 es :
    rexec call h s tr h1 s1 -> call o h1 s1 = Ok (v, s2, es) ->
    rexec call h s (tr ++ [(o, v, es)]) (h1 ++ es) s2.
(** a driver in use: the program starts, init is called with a HAL and options, then
    anything *)
Definition rtrace_wf (tr : list rentry) : Prop :=
  Forall (fun t => rop_wf (fst (fst t))) tr /\ exists hal opts v es tr', tr = (PInit hal opts, v, es) :: tr'.
Definition used127 (H : henv) (tr : list rentry) (h : list hev) (s : Sx127x.d127) : Prop :=
  rexec (call127 H) [] Sx127x.d127_0 tr h s /\ rtrace_wf tr.
Definition used126 (H : henv) (tr : list rentry) (h : list hev) (s : Sx126x.d126) : Prop :=
  rexec (call126 H) [] Sx126x.d126_0 tr h s /\ rtrace_wf tr.
