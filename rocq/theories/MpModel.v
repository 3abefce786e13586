(* Model of /repo/src/util/mp: the buffers of DMPPolicy.h (lines 174-343) and the turnstile of mp.h:37-46.
   MPI itself is modelled as far as these functions use it. *)
From Coq Require Import ZArith List Bool.
From Verif Require Import FloatModel.
Import ListNotations.
Open Scope Z_scope.

(* ---------- message buffers ---------- *)
(* One direction of one port: rbuf/sbuf, rbuf_sz/sbuf_sz, rreq_sz/sreq_sz, and whether a request is pending.
   A byte of freshly allocated memory has no value (None).  The buffer is NULL or as many bytes as were allocated. *)
Record port : Type := mk_port { b_data : option (list (option Z)); b_sz : Z; b_req : Z; b_pending : bool }.
(* struct mp, DMPPolicy.h:20-26: n_port and one direction of all ports *)
Definition ports : Type := list port.
Inductive mpres (A : Type) : Type := MpOK (a : A) | MpError | MpUB.
Arguments MpOK {A}. Arguments MpError {A}. Arguments MpUB {A}.

(* new_mp, lines 173-188 *)
Definition new_mp (n_port : Z) : mpres ports :=
  if n_port <? 1 then MpError else MpOK (repeat (mk_port None 0 0 false) (Z.to_nat n_port)).

Definition set_port (ps : ports) (p : Z) (x : port) : ports := firstn (Z.to_nat p) ps ++ x :: skipn (S (Z.to_nat p)) ps.
(* (int)( sz*(double)RESIZE_FACTOR ), lines 94, 244, 278: RESIZE_FACTOR = 1.3125 = 21/16; None if the value does not fit an int *)
Definition resize_factor : b64 := d_div (d_of_Z 21) (d_of_Z 16).
Definition enlarged (sz : Z) : option Z :=
  let r := d_trunc (d_mul (d_of_Z sz) resize_factor) in if r <=? 2147483647 then Some r else None.

(* mp_size_recv_buffer, lines 229-259, mp_size_send_buffer, 261-294 (the same code for the other direction).
   The test is port>mp->n_port: entry n_port of the arrays is accessed (outside them).  Freeing a buffer that a
   pending MPI request still uses is undefined. *)
Definition size_buffer (ps : ports) (p sz : Z) : mpres ports :=
  if (p <? 0) || (Z.of_nat (length ps) <? p) || (sz <? 1) then MpError else
  match nth_error ps (Z.to_nat p) with
  | None => MpUB
  | Some x =>
      if sz <=? b_sz x then MpOK ps else
      match enlarged sz with
      | None => MpUB
      | Some sz' =>
          match b_data x with
          | None => MpOK (set_port ps p (mk_port (Some (repeat None (Z.to_nat sz'))) sz' (b_req x) (b_pending x)))
          | Some d =>
              if b_pending x then MpUB else
              if sz' <? b_sz x then MpUB (* COPY would overrun the new buffer *) else
              MpOK (set_port ps p (mk_port (Some (firstn (Z.to_nat (b_sz x)) d ++ repeat None (Z.to_nat (sz' - b_sz x)))) sz' (b_req x) (b_pending x)))
          end
      end
  end.

(* mp_begin_recv, lines 296-306, mp_begin_send, 308-318: n_rank = world_size *)
Definition begin_comm (n_rank : Z) (ps : ports) (p sz peer : Z) : mpres ports :=
  if (p <? 0) || (Z.of_nat (length ps) <=? p) then MpError else
  match nth_error ps (Z.to_nat p) with
  | None => MpUB
  | Some x =>
      if (sz <? 1) || (b_sz x <? sz) || (peer <? 0) || (n_rank <=? peer) then MpError
      else MpOK (set_port ps p (mk_port (b_data x) (b_sz x) sz true))
  end.
(* mp_end_recv, lines 320-330, when the message matched to the pending receive is msg: MPI_Wait reports an error if
   the message is longer than the posted size; otherwise its bytes are stored from the start of the buffer on. *)
Definition end_recv (ps : ports) (p : Z) (msg : list Z) : mpres ports :=
  if (p <? 0) || (Z.of_nat (length ps) <=? p) then MpError else
  match nth_error ps (Z.to_nat p) with
  | None => MpUB
  | Some x =>
      if negb (b_pending x) then MpUB (* waiting for a request that was never started: not modelled *) else
      match b_data x with
      | None => MpUB
      | Some d =>
          if b_req x <? Z.of_nat (length msg) then MpError
          else if b_req x =? Z.of_nat (length msg)
          then MpOK (set_port ps p (mk_port (Some (map Some msg ++ skipn (length msg) d)) (b_sz x) (b_req x) false))
          else MpError
      end
  end.
(* mp_end_send, lines 332-338; the bytes handed to MPI are the first b_req bytes of the buffer *)
Definition end_send (ps : ports) (p : Z) : mpres ports :=
  if (p <? 0) || (Z.of_nat (length ps) <=? p) then MpError else
  match nth_error ps (Z.to_nat p) with
  | None => MpUB
  | Some x => if negb (b_pending x) then MpUB else MpOK (set_port ps p (mk_port (b_data x) (b_sz x) (b_req x) false))
  end.
(* The program storing bytes to a buffer it got from mp_send_buffer. *)
Definition fill (ps : ports) (p : Z) (d : list (option Z)) : mpres ports :=
  if (p <? 0) || (Z.of_nat (length ps) <=? p) then MpError else
  match nth_error ps (Z.to_nat p) with
  | None => MpUB
  | Some x =>
      match b_data x with
      | None => MpUB
      | Some o => if (length d <=? length o)%nat && negb (b_pending x)
                  then MpOK (set_port ps p (mk_port (Some (d ++ skipn (length d) o)) (b_sz x) (b_req x) (b_pending x))) else MpUB
      end
  end.
Inductive mpop : Type :=
| MSize (p sz : Z) | MBegin (p sz peer : Z) | MEndRecv (p : Z) (msg : list Z) | MEndSend (p : Z) | MFill (p : Z) (d : list (option Z)).
Definition mp_step (n_rank : Z) (ps : ports) (o : mpop) : mpres ports :=
  match o with
  | MSize p sz => size_buffer ps p sz
  | MBegin p sz peer => begin_comm n_rank ps p sz peer
  | MEndRecv p msg => end_recv ps p msg
  | MEndSend p => end_send ps p
  | MFill p d => fill ps p d
  end.
Fixpoint mp_run (n_rank : Z) (ps : ports) (os : list mpop) : mpres ports :=
  match os with
  | [] => MpOK ps
  | o :: os => match mp_step n_rank ps o with MpOK ps' => mp_run n_rank ps' os | e => e end
  end.
(* mp_recv_buffer, mp_send_buffer, lines 215-227 *)
Definition buffer_of (ps : ports) (p : Z) : mpres (option (list (option Z))) :=
  if (p <? 0) || (Z.of_nat (length ps) <=? p) then MpError else
  match nth_error ps (Z.to_nat p) with None => MpUB | Some x => MpOK (b_data x) end.

(* ---------- turnstile ---------- *)
(* Every rank passes a sequence of turnstiles of the given widths.  Position of a rank: the number of the turnstile and how
   far it is in it: before the receive, inside, before the send, waiting for the send to complete. *)
Inductive phase : Type := PRecv | PIn | PSend | PWait.
(* chan a b: number of ints sent by a to b and not yet received.  All carry the same tag and MPI delivers them in order. *)
Record tstate : Type := mk_ts { pos : Z -> nat * phase; chan : Z -> Z -> Z }.
Definition ts_start : tstate := mk_ts (fun _ => (O, PRecv)) (fun _ _ => 0).
Definition upd {A} (f : Z -> A) (r : Z) (x : A) : Z -> A := fun r' => if r' =? r then x else f r'.
Definition upd2 (c : Z -> Z -> Z) (a b x : Z) : Z -> Z -> Z := fun a' b' => if (a' =? a) && (b' =? b) then x else c a' b'.

(* One step of rank r of n ranks; ws are the widths.  BEGIN_TURNSTILE mp.h:37-41, END_TURNSTILE mp.h:43-46, mp_send_i and
   mp_recv_i DMPPolicy.h:155-171.  MPI_Send may return once the message is under way (eager) or only when it has been
   received: a send that must have returned is one whose message is no longer in the channel.  Widths are assumed
   not negative (a negative one is reported as an error by some rank). *)
Inductive tstep (eager : bool) (ws : list Z) (n : Z) : Z -> tstate -> tstate -> Prop :=
| t_recv : forall r s k w, 0 <= r < n -> pos s r = (k, PRecv) -> nth_error ws k = Some w -> w <= r -> 0 < chan s (r - w) r ->
    tstep eager ws n r s (mk_ts (upd (pos s) r (k, PIn)) (upd2 (chan s) (r - w) r (chan s (r - w) r - 1)))
| t_enter : forall r s k w, 0 <= r < n -> pos s r = (k, PRecv) -> nth_error ws k = Some w -> r < w ->
    tstep eager ws n r s (mk_ts (upd (pos s) r (k, PIn)) (chan s))
| t_body : forall r s k w, 0 <= r < n -> pos s r = (k, PIn) -> nth_error ws k = Some w ->
    tstep eager ws n r s (mk_ts (upd (pos s) r (k, PSend)) (chan s))
| t_send : forall r s k w, 0 <= r < n -> pos s r = (k, PSend) -> nth_error ws k = Some w -> r + w < n ->
    tstep eager ws n r s (mk_ts (upd (pos s) r (k, PWait)) (upd2 (chan s) r (r + w) (chan s r (r + w) + 1)))
| t_last : forall r s k w, 0 <= r < n -> pos s r = (k, PSend) -> nth_error ws k = Some w -> n <= r + w ->
    tstep eager ws n r s (mk_ts (upd (pos s) r (S k, PRecv)) (chan s))
| t_sent : forall r s k w, 0 <= r < n -> pos s r = (k, PWait) -> nth_error ws k = Some w -> eager = true \/ chan s r (r + w) = 0 ->
    tstep eager ws n r s (mk_ts (upd (pos s) r (S k, PRecv)) (chan s)).
(* Executions, as the list of the ranks that moved. *)
Inductive texec (eager : bool) (ws : list Z) (n : Z) : tstate -> list Z -> tstate -> Prop :=
| te_nil : forall s, texec eager ws n s [] s
| te_cons : forall s r s' l s'', tstep eager ws n r s s' -> texec eager ws n s' l s'' -> texec eager ws n s (r :: l) s''.
