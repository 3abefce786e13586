(* What the dumps of DumpModel.v should contain, without their loops. *)
From Coq Require Import ZArith List Bool Lia.
From Verif Require Import CheckptModel DumpModel.
Import ListNotations.
Open Scope Z_scope.

Definition mesh_ok (m : mesh) : Prop := 1 <= m_nx m /\ 1 <= m_ny m /\ 1 <= m_nz m.
Definition strides_ok (m : mesh) (st : strides) : Prop :=
  1 <= s_x st /\ 1 <= s_y st /\ 1 <= s_z st /\ (s_x st | m_nx m) /\ (s_y st | m_ny m) /\ (s_z st | m_nz m).
(* the strides for which the code samples what its comment says: none, or one in every direction *)
Definition even_strides (st : strides) : Prop :=
  (s_x st = 1 /\ s_y st = 1 /\ s_z st = 1) \/ (2 <= s_x st /\ 2 <= s_y st /\ 2 <= s_z st).
(* "the boundary plus every stride elements": c i is the cell of the output index i *)
Definition sampled (n s : Z) (c : Z -> Z) : Prop :=
  c 0 = 0 /\ c (n / s + 1) = n + 1 /\
  (forall i, 1 <= i <= n / s -> 1 <= c i <= n) /\ (forall i, 1 <= i < n / s -> c (i + 1) = c i + s).
(* FORTRAN order of cells of a mesh with ghosts *)
Definition cell (m : mesh) (x y z : Z) : Z := x + (m_nx m + 2) * (y + (m_ny m + 2) * z).
(* where the value of the v-th variable at i, j, k is among cx by cy by cz points *)
Definition place (cx cy cz v i j k : Z) : nat := Z.to_nat (((v * cz + k) * cy + j) * cx + i).
(* number of bits set below n *)
Fixpoint pop (n : nat) (bits : Z) : Z :=
  match n with O => 0 | S k => pop k bits + (if Z.testbit bits (Z.of_nat k) then 1 else 0) end.

(* the integer of size bytes at an offset of a file, little endian *)
Definition at_offset (bytes : list Z) (off size : nat) : Z := unle (firstn size (skipn off bytes)).
(* the header as documented by the readers of the files: offset, size and value of the 29 items *)
Definition layout (type : Z) (w : writer) (nx ny nz : Z) (f : floats) (sp_id q_m : Z) : list (nat * nat * Z) :=
  [(0, 1, 8%Z); (1, 1, 2%Z); (2, 1, 4%Z); (3, 1, 4%Z); (4, 1, 8%Z); (5, 2, 51966%Z); (7, 4, 3735928559%Z);
   (11, 4, 1065353216%Z); (15, 8, 4607182418800017408%Z); (23, 4, 0%Z); (27, 4, type); (31, 4, w_step w);
   (35, 4, nx); (39, 4, ny); (43, 4, nz); (47, 4, h_dt f); (51, 4, h_dx f); (55, 4, h_dy f); (59, 4, h_dz f);
   (63, 4, h_x0 f); (67, 4, h_y0 f); (71, 4, h_z0 f); (75, 4, h_cvac f); (79, 4, h_eps0 f); (83, 4, 0%Z);
   (87, 4, w_rank w); (91, 4, w_nproc w); (95, 4, sp_id); (99, 4, q_m)]%nat.

(* a mask made of whole groups *)
Definition whole_groups (groups : list (Z * Z)) (bits : Z) : Prop :=
  forall g b, In g groups -> fst g <= b < fst g + snd g -> Z.testbit bits b = Z.testbit bits (fst g).
Definition elements (groups : list (Z * Z)) : Z := fold_right (fun g n => snd g + n) 0 groups.

(* texts of the nine coefficients, of the id and the name *)
Definition mat_text (e i : Z -> list Z) (m : mat_line) : list (list Z) :=
  k_name m :: i (k_id m) :: map (fun n => e (nth n (k_c m) 0)) (seq 0 9).
Definition plain (l : list Z) : Prop := ~ In 10 l /\ ~ In 32 l.
(* the cell the code reads for an output index when some stride is not 1 *)
Definition strided (n s i : Z) : Z := if i =? 0 then 0 else if i =? n / s + 1 then n + 1 else s * i - 1.
(* the last interior layer of a direction with stride 1 *)
Definition last_layer (m : mesh) (st : strides) (x y z : Z) : Prop :=
  (s_x st = 1 /\ x = m_nx m) \/ (s_y st = 1 /\ y = m_ny m) \/ (s_z st = 1 /\ z = m_nz m).
(* what a file says of itself: the words of the data are the product of the dimensions times the words of a point *)
Definition points (dims : list Z) : Z := fold_right Z.mul 1 dims.
