(* The ranks running exchanges side by side.

   /repo/src/field_advance/standard/remote.cc, /repo/src/grid/grid_comm.cc:17-60, /repo/src/util/mp/DMPPolicy.h:303-345.
   Every rank runs the same sequence of exchanges and of work of its own between them; the ranks take turns in any order, one call at a time.
   MPI is modelled by what the standard promises: messages between two ranks with the same tag are received in the order sent, a synchronous
   send (MPI_Issend) completes once its receive has been posted, a receive completes once its message has been sent. *)
From Coq Require Import ZArith List Bool.
From Verif Require Import SortModel VoxelModel GridModel FieldModel RemoteModel.
Import ListNotations.
Open Scope Z_scope.

Definition set_at {T} (f : Z -> T) (r : Z) (v : T) : Z -> T := fun x => if x =? r then v else f x.

Section Run.
Variable V : Type.
Variable A : rarith V.
Variable ws : Z.
Variable G : Z -> cgrid V.

(* What all ranks do: an exchange, or work on their own fields, e.g. advance_b. *)
Inductive stage : Type := Exchange (e : exch) | Work (f : Z -> mem V -> mem V).
(* one call of grid_comm.cc, or work *)
Inductive call : Type := Comm (e : exch) (o : cop) | Local (f : Z -> mem V -> mem V).
Definition program (es : list stage) : list call :=
  flat_map (fun x => match x with Exchange e => map (Comm e) (calls_of e) | Work f => [Local f] end) es.

(* s_recv r p: the request of the receive begun on port p of rank r (rreq[port], rreq_sz[port]): source, tag, size.
   s_send r p: the one of the send: destination.  s_net: the messages sent and not yet received, oldest first. *)
Record state : Type := mk_state { s_pc : Z -> nat; s_mem : Z -> mem V; s_recv : Z -> Z -> option (Z * Z * Z); s_send : Z -> Z -> option Z; s_net : list (msg V) }.
(* what a turn of a rank gives: it is through, it waits in MPI_Wait, it goes on, or something is wrong: a request begun again before it was
   completed, waiting for a request that was not begun, sizes that do not match, or reading past the end of the data received *)
Inductive turned : Type := Ended | Waits | Goes (c : state) | Fails.

Definition is_msg (src dst tag : Z) (m : msg V) : bool := (m_src V m =? src) && (m_dst V m =? dst) && (m_tag V m =? tag).
Fixpoint take (f : msg V -> bool) (l : list (msg V)) : option (msg V * list (msg V)) :=
  match l with
  | [] => None
  | m :: l => if f m then Some (m, l) else match take f l with Some (m', l') => Some (m', m :: l') | None => None end
  end.
(* number of receives begun on rank d for messages of r with this tag *)
Definition posted (c : state) (d r tag : Z) : nat :=
  length (filter (fun p => match s_recv c d p with Some (src, t, _) => (src =? r) && (t =? tag) | None => false end) (zrange 0 27)).
(* END_RECV past end_recv_port: the loops of RemoteModel.receive *)
Definition consume (e : exch) (g : cgrid V) (a : axis) (s : Z) (data : list V) (F : mem V) : option (mem V) :=
  let ls := addrs (c_n V g) a (recv_plane e s (at_ a (c_n V g))) (recv_items e a) in
  if has_head e then match data with
    | dr :: data => unpack V (combine_ V A e g a s dr) (c_n V g) ls data F
    | [] => None end
  else unpack V (combine_ V A e g a s (r_zero V A)) (c_n V g) ls data F.

Definition past (c : state) (r : Z) : Z -> nat := set_at (s_pc c) r (S (s_pc c r)).
Definition go (c : state) (r : Z) : turned := Goes (mk_state (past c r) (s_mem c) (s_recv c) (s_send c) (s_net c)).
Definition comm (e : exch) (o : cop) (c : state) (r : Z) : turned :=
  match o with
  | BRecv a s =>                                           (* begin_recv_port: port = BOUNDARY(-i,-j,-k), tag BOUNDARY(i,j,k) *)
      let p := port a (- s) in
      match peer V ws G r p with
      | None => go c r
      | Some src =>
          match s_recv c r p with
          | Some _ => Fails
          | None => Goes (mk_state (past c r) (s_mem c) (set_at (s_recv c) r (set_at (s_recv c r) p (Some (src, port a s, msg_floats e (c_n V (G r)) a)))) (s_send c) (s_net c))
          end
      end
  | BSend a s =>                                           (* size_send_port, packing, begin_send_port *)
      let p := port a s in
      match send V ws G e r (s_mem c r) a s with
      | None => go c r
      | Some m =>
          match s_send c r p with
          | Some _ => Fails
          | None => Goes (mk_state (past c r) (s_mem c) (s_recv c) (set_at (s_send c) r (set_at (s_send c r) p (Some (m_dst V m)))) (s_net c ++ [m]))
          end
      end
  | ERecv a s =>                                           (* end_recv_port, unpacking *)
      let p := port a (- s) in
      match peer V ws G r p with
      | None => go c r
      | Some _ =>
          match s_recv c r p with
          | None => Fails
          | Some (src, tag, size) =>
              match take (is_msg src r tag) (s_net c) with
              | None => Waits
              | Some (m, net') =>
                  if negb (m_size V m =? size) then Fails else
                  match consume e (G r) a s (m_data V m) (s_mem c r) with
                  | None => Fails
                  | Some F => Goes (mk_state (past c r) (set_at (s_mem c) r F) (set_at (s_recv c) r (set_at (s_recv c r) p None)) (s_send c) net')
                  end
              end
          end
      end
  | ESend a s =>                                           (* end_send_port *)
      let p := port a s in
      match peer V ws G r p with
      | None => go c r
      | Some _ =>
          match s_send c r p with
          | None => Fails
          | Some d =>
              (* as many messages under way as there are receives begun for them: all are matched *)
              if Nat.leb (length (filter (is_msg r d p) (s_net c))) (posted c d r p)
              then Goes (mk_state (past c r) (s_mem c) (s_recv c) (set_at (s_send c) r (set_at (s_send c r) p None)) (s_net c))
              else Waits
          end
      end
  end.
Definition turn (cs : list call) (c : state) (r : Z) : turned :=
  match nth_error cs (s_pc c r) with
  | None => Ended
  | Some (Local f) => Goes (mk_state (past c r) (set_at (s_mem c) r (f r (s_mem c r))) (s_recv c) (s_send c) (s_net c))
  | Some (Comm e o) => comm e o c r
  end.
Definition start (W : Z -> mem V) : state := mk_state (fun _ => O) W (fun _ _ => None) (fun _ _ => None) [].
(* n turns, taken by any ranks that can *)
Inductive turns (cs : list call) : nat -> state -> state -> Prop :=
| t_none : forall c, turns cs O c c
| t_more : forall n c1 c2 c3 r, turns cs n c1 c2 -> 0 <= r < ws -> turn cs c2 r = Goes c3 -> turns cs (S n) c1 c3.

(* What the ranks should end with: the stages one after the other, each exchange in its phases (RemoteModel.run_phases) *)
Inductive runs : list stage -> (Z -> mem V) -> (Z -> mem V) -> Prop :=
| r_none : forall W W', (forall r, 0 <= r < ws -> W' r = W r) -> runs [] W W'
| r_exchange : forall e es W W1 W', run_phases V A ws G e (phases e) W W1 -> runs es W1 W' -> runs (Exchange e :: es) W W'
| r_work : forall f es W W1 W', (forall r, 0 <= r < ws -> W1 r = f r (W r)) -> runs es W1 W' -> runs (Work f :: es) W W'.
End Run.
