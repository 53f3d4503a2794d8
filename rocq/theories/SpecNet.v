(** SpecNet.v -- vocabulary of the statements about a device and a network server that
    talk over a network which loses, repeats and reorders frames. *)
From Verif Require Export SpecCs SpecRep.

(** ** The server's side of an uplink (LoRaWAN 1.0.x, 4.3.1.5)
    The server remembers the 32-bit counter of the last uplink it took (-1: none). From
    the 16 bits on air it takes the next counter after that one which ends in these bits,
    unless that is a repetition or more than MAX_FCNT_GAP = 16384 ahead. *)
Definition server_counter (last c16 : Z) : option Z :=
  let d := (c16 - last) mod 65536 in
  if (d =? 0) || (16384 <? d) then None else Some (last + d).
(** the port decides which key the payload is read with, 4.3.3 *)
Definition up_port (f : list Z) : Z := at_ f (8 + Z.to_nat (at_ f 5 mod 16))%nat.
Definition server_takes (aes cmac : list Z -> list Z -> list Z) (r : session) (last : Z) (f : list Z) : option (Z * uplink) :=
  match server_counter last (unle (slice f 6 2)) with
  | None => None
  | Some n =>
      match server_receive aes cmac (nwk_s_key r) (port_key r (up_port f)) (dev_addr r) n f with
      | None => None
      | Some u => Some (n, u)
      end
  end.
(** everything the server takes from the frames that arrive, with their counters *)
Fixpoint server_run (aes cmac : list Z -> list Z -> list Z) (r : session) (last : Z) (arrivals : list (list Z)) : list (Z * uplink) :=
  match arrivals with
  | [] => []
  | f :: fs => match server_takes aes cmac r last f with
               | None => server_run aes cmac r last fs
               | Some (n, u) => (n, u) :: server_run aes cmac r n fs
               end
  end.
(** what the server hands on: confirmed or not, port and payload *)
Definition handed (x : Z * uplink) : Z * (bool * option (Z * list Z)) := (fst x, (u_confirm (snd x), u_data (snd x))).

(** ** The network
    [is] are the numbers of the frames (0, 1, ... in the order of sending) in the order
    they arrive: frames may be missing, repeated or late. Not more than 16383 frames in
    a row are lost, and none is late by more than 49151. [top]: highest number so far. *)
Fixpoint passable (top : Z) (is : list Z) : Prop :=
  match is with
  | [] => True
  | i :: is' => top - 49151 <= i <= top + 16384 /\ passable (Z.max top i) is'
  end.
(** the arrivals that are later than all before them *)
Fixpoint fresh (top : Z) (is : list Z) : list Z :=
  match is with
  | [] => []
  | i :: is' => if top <? i then i :: fresh i is' else fresh top is'
  end.

(** ** What the application says
    [before]: all that happened from power-on to the call. *)
Definition nonempty (port : Z) (d : list Z) : option (Z * list Z) := match d with [] => None | _ => Some (port, d) end.
Definition says (E : env) (before : list entry) (t : entry) : list (bool * option (Z * list Z)) :=
  let see := cs_seen E before in
  match t with
  | (OSend port d confirm, VErr ERR_NO, _) => [(confirm, nonempty port d)]
  | (OCsSendReq a, VErr ERR_NO, es) =>
      [(false, Some (CLOCK_PORT, cv_ans see ++ [1] ++ le 4 (gps_of_unix (hd 0 (readings es))) ++ [cv_tok see + 16 * (if a then 1 else 0)]))]
  | (OCsSendAns, VErr ERR_NO, _) => [(false, Some (CLOCK_PORT, cv_ans see))]
  | _ => []
  end.
Fixpoint said (E : env) (before tr : list entry) : list (bool * option (Z * list Z)) :=
  match tr with [] => [] | t :: tr' => says E before t ++ said E (before ++ [t]) tr' end.
(** nothing is sent on port 0 (C78) *)
Definition no_port_0 (t : entry) : Prop := match fst (fst t) with OSend port d _ => port <> 0 \/ d = [] | _ => True end.

(** ** Downlinks
    [msg c]: the message the server sends with the counter [c]. *)
Record dmsg := Mk_dmsg { dm_confirmed : bool; dm_hi : Z; dm_fopts : list Z; dm_frm : option (Z * list Z) }.
Definition server_frame (E : env) (r : session) (msg : Z -> dmsg) (c : Z) : list Z :=
  downlink_frame (e_aes E) (e_cmac E) (nwk_s_key r) (app_s_key r) (dev_addr r) c (dm_confirmed (msg c)) (dm_hi (msg c)) (dm_fopts (msg c)) (dm_frm (msg c)).
(** the counters of the frames that arrive: frames may be missing (at most 16383 in a
    row) and repeated. [top]: highest counter so far, -1 if there is none. Before the
    first frame with a counter above 0 the device knows no high bits, and a repeated
    frame 0 is excluded (C13). *)
Fixpoint heard (top : Z) (cs : list Z) : Prop :=
  match cs with
  | [] => True
  | c :: cs' => (if 0 <? top then top <= c <= top + 16384 else top < c < 65536) /\ c < 4294967296 /\ heard (Z.max top c) cs'
  end.
(** also late frames, by at most 49151 *)
Fixpoint heard_late (top : Z) (cs : list Z) : Prop :=
  match cs with
  | [] => True
  | c :: cs' => (if 0 <? top then top - 49151 <= c <= top + 16384 else top < c < 65536) /\ 0 <= c < 4294967296 /\ heard_late (Z.max top c) cs'
  end.
Definition top_of (w : world) : Z := if f_cnt_down (ses w) =? 0 then -1 else f_cnt_down (ses w).
(** what the application is handed: confirmed or not, port and payload *)
Definition deliveries (tr : list entry) : list (bool * option (Z * list Z)) :=
  flat_map (fun t => flat_map (fun c => match c with
    | (ERR_NO, ty, v) => [(ty =? 5, match v_data v with Some d => Some (v_port v, d) | None => None end)]
    | _ => [] end) (callbacks (snd t))) tr.
Definition heard_frames (tr : list entry) : list (list Z) := flat_map (fun t => reads (snd t)) tr.
Definition join_call (t : entry) : bool := match t with (OJoin, VErr ERR_NO, _) => true | _ => false end.
