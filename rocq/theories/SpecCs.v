(** SpecCs.v -- vocabulary of the statements about clock synchronisation (LoRa Alliance TS003). *)
From Verif Require Export SpecAdr.

Definition scan_cons (q : cs_req) (r : list cs_req + ub) : list cs_req + ub :=
  match r with inl l => inl (q :: l) | inr k => inr k end.
(** What the device makes of a message: the requests it executes, in order, or the
    undefined behaviour it runs into. [strict]: shifting a set bit out of an int is
    undefined; [per]: the application handles periodicity requests; [seen]: commands met
    so far; [post]: what follows the message in memory. *)
Fixpoint cs_scan (strict per : bool) (post : list Z) (seen : list Z) (msg : list Z) : list cs_req + ub :=
  match msg with
  | [] => inl []
  | c :: rest =>
      if (32 <=? c) || (strict && (c =? 31)) then inr UB_shift else
      if existsb (Z.eqb c) seen then inl [] else
      let seen' := if c <? 8 then c :: seen else seen in
      if c =? 0 then scan_cons QVersion (cs_scan strict per post seen' rest)
      else if c =? 1 then
        match rest with
        | b0 :: b1 :: b2 :: b3 :: b4 :: rest' =>
            if strict && (128 <=? b3) then inr UB_shift else
            scan_cons (QAnswer (signed32 (unle [b0; b1; b2; b3])) (b4 mod 16)) (cs_scan strict per post seen' rest')
        | _ => cs_scan strict per post seen' rest
        end
      else if c =? 2 then
        match rest with
        | [] => inl []
        | p :: rest' =>
            if per && (5 <? p) then inr UB_overflow else
            scan_cons (QPeriod p) (cs_scan strict per post seen' rest')
        end
      else if c =? 3 then
        match rest with
        | [] => match post with [] => inr UB_oob | b :: _ => inl [QResync (b mod 8)] end
        | b :: rest' => scan_cons (QResync (b mod 8)) (cs_scan strict per post seen' rest')
        end
      else cs_scan strict per post seen' rest
  end.

(** ** What a call does, as the application sees it *)
Definition corrections (es : list ev) : list Z := flat_map (fun e => match e with KCorrection c => [c] | _ => [] end) es.
Definition periods (es : list ev) : list Z := flat_map (fun e => match e with KPeriod p => [p] | _ => [] end) es.
Definition readings (es : list ev) : list Z := flat_map (fun e => match e with KUnixtime t => [t] | _ => [] end) es.
Definition resyncs (es : list ev) : list unit := flat_map (fun e => match e with KResync => [tt] | _ => [] end) es.

Definition CLOCK_PORT := 202. (* TS003 *)
(** the message in the first [size] bytes of what the application passes, and what follows it *)
Definition msg_of (size : Z) (l : list Z) : list Z := firstn (Z.to_nat size) l.
Definition post_of (size : Z) (l : list Z) : list Z := skipn (Z.to_nat size) l.
Definition executed (E : env) (per : bool) (size : Z) (l : list Z) : list cs_req :=
  match cs_scan (e_strict_shl E) per (post_of size l) [] (msg_of size l) with inl qs => qs | inr _ => [] end.

(** command identifiers, and the answer to a request when the clock reads [t] *)
Definition cs_kind (q : cs_req) : Z :=
  match q with QVersion => 0 | QAnswer _ _ => 1 | QPeriod _ => 2 | QResync _ => 3 end.
Definition cs_answer_to (per : bool) (t : Z) (q : cs_req) : list Z :=
  match q with
  | QVersion => [0; 1; 1]                                   (* PackageVersionAns: package 1, version 1 *)
  | QPeriod _ => [2; if per then 0 else 1] ++ le 4 (gps_of_unix t)  (* DeviceAppTimePeriodicityAns *)
  | _ => []
  end.
(** the corrections carried with token [tok] *)
Definition carried (tok : Z) (qs : list cs_req) : list Z :=
  flat_map (fun q => match q with QAnswer c t => if t =? tok then [c] else [] | _ => [] end) qs.

(** What an execution determines of the extension: the callbacks registered last, the number
    of corrections applied since (modulo 16: the current token), and the answer waiting to be
    sent. A callback without error drops the waiting answer, whatever its port. *)
Record cs_view := Mk_cs_view { cv_cbs : option cs_cbs; cv_tok : Z; cv_ans : list Z }.
Definition cs_msg (o : op) : option (Z * list Z) :=
  match o with
  | OCsHandle ERR_NO (Some l) size port => if negb (size =? 0) && (port =? CLOCK_PORT) then Some (size, l) else None
  | _ => None
  end.
Definition cs_see (E : env) (v : cs_view) (t : entry) : cs_view :=
  let '(o, _, es) := t in
  match o with
  | OCsInit c => Mk_cs_view c 0 []
  | OCsHandle ERR_NO _ _ _ =>
      Mk_cs_view (cv_cbs v) ((cv_tok v + len (corrections es)) mod 16)
        (match cv_cbs v, cs_msg o with
         | Some c, Some (size, l) =>
             flat_map (cs_answer_to (has_periodicity c) (hd 0 (readings es))) (executed E (has_periodicity c) size l)
         | _, _ => []
         end)
  | _ => v
  end.
Definition cs_seen (E : env) (tr : list entry) : cs_view := fold_left (cs_see E) tr (Mk_cs_view None 0 []).

(** ** Messages made of well-formed commands *)
Definition cs_encode (q : cs_req) : list Z :=
  match q with
  | QVersion => [0]
  | QAnswer c t => [1] ++ le 4 (c mod 4294967296) ++ [t]
  | QPeriod p => [2; p]
  | QResync n => [3; n]
  end.
Definition cs_req_ok (q : cs_req) : Prop :=
  match q with
  | QVersion => True
  | QAnswer c t => -2147483648 <= c < 2147483648 /\ 0 <= t < 16
  | QPeriod p => 0 <= p < 16
  | QResync n => 0 <= n < 8
  end.
(** requests the device survives *)
Definition cs_req_safe (strict per : bool) (q : cs_req) : bool :=
  match q with
  | QAnswer c _ => negb (strict && (c <? 0))
  | QPeriod p => negb (per && (5 <? p))
  | _ => true
  end.
