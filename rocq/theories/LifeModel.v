(* Model of a run from scratch as the checkpoint service sees it: which objects are registered and unregistered, in which order, from
   boot_services to halt_services (/repo/src/util/boot.cc, /repo/deck/main.cc, /repo/src/vpic/vpic.cc).  The service is that of CheckptModel.v;
   an object is its address.  The deck is any sequence of the define_ functions of /repo/src/vpic/vpic.h.  Left out: runs that restore,
   errors of the define_ functions (the process exits there), objects a deck makes by other means, what the objects hold. *)
From Coq Require Import ZArith List Bool.
From Verif Require Import CheckptModel.
Import ListNotations.
Open Scope Z_scope.

(* boot.cc:14-62, halt: boot.cc:66-89.  The three settings of VPIC_USE_PTHREADS, VPIC_SWAP_MPI_PTHREAD_INIT, VPIC_USE_OPENMP *)
Inductive threading := Pthreads | PthreadsSwapped | OpenMP.
Inductive part := Checkpt | Serial | Thread | Mp | Omp.
Definition boots (t : threading) : list part :=
  Checkpt :: match t with Pthreads => [Serial; Thread; Mp] | PthreadsSwapped => [Mp; Serial; Thread] | OpenMP => [Mp; Omp] end.
Definition halts (t : threading) : list part :=
  match t with Pthreads => [Mp; Thread; Serial] | PthreadsSwapped => [Thread; Serial; Mp] | OpenMP => [Mp] end ++ [Checkpt].

(* the objects that are not allocated by the simulation: serial (pipelines_serial.cc:35,64), thread (pipelines_thread.cc:231,278), __world
   (DMPPolicy.h:111,116), &simulation (main.cc:101,142); omp_helper is not registered (pipelines_helper.cc:10-30) *)
Record statics := { a_serial : Z; a_thread : Z; a_world : Z; a_main : Z }.
Definition part_objects (a : statics) (p : part) : list Z :=
  match p with Serial => [a_serial a] | Thread => [a_thread a] | Mp => [a_world a] | Checkpt | Omp => [] end.

(* a pool of generators (rng_pool.cc:27-50): the pool and its generators, registered one by one before it *)
Record pool := { p_pool : Z; p_rng : list Z }.
(* vpic_simulation, vpic.h:183-197: the objects its pointers lead to; lists in list order, the four arrays of define_field_array
   or none.  The parameters of a collision operator are not among them *)
Record sim := { m_entropy : pool; m_sync : pool; m_grid : Z; m_mp : Z; m_this : Z;
  m_materials : list Z; m_fields : option (Z * Z * Z * Z); m_species : list Z; m_bcs : list Z; m_emitters : list Z; m_cops : list Z }.
(* what a deck may define: append_material (vpic.h:415-438), define_field_array (vpic.h:458-470: field, interpolator, accumulator, hydro array),
   define_species (vpic.h:497-516), define_particle_bc, define_emitter, define_collision_op (vpic.h:628-641).  A collision
   operator has params if it is a unary or binary model whose parameters are an object of their own (hard_sphere.cc:398,426,
   large_angle_coulomb.cc:251,282; unary.cc and binary.cc insist on their being registered) and none otherwise (langevin.cc, takizuka_abe.cc) *)
Inductive create := NewMaterial (p : Z) | NewFields (f i a h : Z) | NewSpecies (p : Z) | NewBc (p : Z) | NewEmitter (p : Z)
  | NewCollision (p : Z) (params : option Z).
Definition created (c : create) : list Z :=
  match c with
  | NewMaterial p | NewSpecies p | NewBc p | NewEmitter p => [p]
  | NewFields f i a h => [f; i; a; h]
  | NewCollision p q => match q with Some q => [q; p] | None => [p] end
  end.
(* the append_ functions put the object at the head of its list; define_field_array overwrites the four pointers *)
Definition define (m : sim) (c : create) : sim :=
  match c with
  | NewMaterial p => {| m_entropy := m_entropy m; m_sync := m_sync m; m_grid := m_grid m; m_mp := m_mp m; m_this := m_this m; m_materials := p :: m_materials m;
      m_fields := m_fields m; m_species := m_species m; m_bcs := m_bcs m; m_emitters := m_emitters m; m_cops := m_cops m |}
  | NewFields f i a h => {| m_entropy := m_entropy m; m_sync := m_sync m; m_grid := m_grid m; m_mp := m_mp m; m_this := m_this m; m_materials := m_materials m;
      m_fields := Some (f, i, a, h); m_species := m_species m; m_bcs := m_bcs m; m_emitters := m_emitters m; m_cops := m_cops m |}
  | NewSpecies p => {| m_entropy := m_entropy m; m_sync := m_sync m; m_grid := m_grid m; m_mp := m_mp m; m_this := m_this m; m_materials := m_materials m;
      m_fields := m_fields m; m_species := p :: m_species m; m_bcs := m_bcs m; m_emitters := m_emitters m; m_cops := m_cops m |}
  | NewBc p => {| m_entropy := m_entropy m; m_sync := m_sync m; m_grid := m_grid m; m_mp := m_mp m; m_this := m_this m; m_materials := m_materials m;
      m_fields := m_fields m; m_species := m_species m; m_bcs := p :: m_bcs m; m_emitters := m_emitters m; m_cops := m_cops m |}
  | NewEmitter p => {| m_entropy := m_entropy m; m_sync := m_sync m; m_grid := m_grid m; m_mp := m_mp m; m_this := m_this m; m_materials := m_materials m;
      m_fields := m_fields m; m_species := m_species m; m_bcs := m_bcs m; m_emitters := p :: m_emitters m; m_cops := m_cops m |}
  | NewCollision p _ => {| m_entropy := m_entropy m; m_sync := m_sync m; m_grid := m_grid m; m_mp := m_mp m; m_this := m_this m; m_materials := m_materials m;
      m_fields := m_fields m; m_species := m_species m; m_bcs := m_bcs m; m_emitters := m_emitters m; m_cops := p :: m_cops m |}
  end.

(* the constructor (vpic.cc:74-110; new_grid: grid_structors.cc:35-45): a simulation without anything defined, and what it registers *)
Definition new_sim (e s : pool) (g mp this : Z) : sim := {| m_entropy := e; m_sync := s; m_grid := g; m_mp := mp; m_this := this;
  m_materials := []; m_fields := None; m_species := []; m_bcs := []; m_emitters := []; m_cops := [] |}.
Definition constructed (e s : pool) (g mp this : Z) : list Z := p_rng e ++ [p_pool e] ++ p_rng s ++ [p_pool s] ++ [mp; g; this].
(* the destructor (vpic.cc:112-126) and the delete_ functions it calls: collision.cc:64-72 with unary.cc:58-67, binary.cc:71-81, langevin.cc:48-54,
   takizuka_abe.cc:38-43; emitter.cc, boundary.cc, species_advance.cc:46-74, material.cc:31-52, sf_interface, sfa.cc:218-225,
   grid_structors.cc:47-55, rng_pool.cc:42-50 *)
Definition destroyed (m : sim) : list Z :=
  [m_this m] ++ m_cops m ++ m_emitters m ++ m_bcs m ++ m_species m ++
  match m_fields m with Some (f, i, a, h) => [h; a; i; f] | None => [] end ++
  m_materials m ++ [m_grid m; m_mp m] ++ (p_pool (m_sync m) :: p_rng (m_sync m)) ++ (p_pool (m_entropy m) :: p_rng (m_entropy m)).

(* the calls of register_object and unregister_object, which do not look at the functions of an object; an error ends the run *)
Fixpoint registers (s : service) (l : list Z) : outcome service :=
  match l with [] => Done s | p :: r => match register s p 0 0 0 with Done s' => registers s' r | Error => Error end end.
Fixpoint unregisters (s : service) (l : list Z) : outcome service :=
  match l with [] => Done s | p :: r => match unregister s p with Done s' => unregisters s' r | Error => Error end end.
Definition and_then (o : outcome service) (f : service -> outcome service) : outcome service := match o with Done s => f s | Error => Error end.

(* main.cc:64-151 without --restore, up to halt_checkpt, which is the last call of halt_services.  The steps of the run register nothing *)
Definition until_halt (t : threading) (a : statics) (e s : pool) (g mp this : Z) (deck : list create) : outcome service :=
  let m := fold_left define deck (new_sim e s g mp this) in
  and_then (boot (mks false false [] 0)) (fun s0 =>
  and_then (registers s0 (flat_map (part_objects a) (boots t) ++ constructed e s g mp this ++ flat_map created deck ++ [a_main a])) (fun s1 =>
  unregisters s1 ([a_main a] ++ destroyed m ++ flat_map (part_objects a) (halts t)))).
Definition whole_run (t : threading) (a : statics) (e s : pool) (g mp this : Z) (deck : list create) : outcome service :=
  and_then (until_halt t a e s g mp this deck) halt.
