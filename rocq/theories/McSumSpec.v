(** * What readmcparticles is to sum *)

From Verif Require Import Bytes StrMap SioModel Ieee ObjModel ObjSpec CollSpec EventModel EventSpec IndexModel FileModel FileSpec CalSpec.

(** the collection MCParticle of an event is not written *)
Definition no_particles (i : witem) : Prop :=
  match i with WRun _ => False | WEvt h e only => ~ In (str "MCParticle") (map fst (stored_cols only e)) end.
(** it is written, and has the particles [ms], which are written with the event *)
Definition has_particles (i : witem) (ms : list mcp) : Prop :=
  match i with
  | WRun _ => False
  | WEvt h e only => exists c, In (str "MCParticle", c) (stored_cols only e) /\ c_type c = str "MCParticle" /\
      (is_subset c = true -> Forall (written_in (str "MCParticle") (stored_cols only e)) (c_elems c)) /\
      Forall2 (fun a m => h a = Some (OMC m)) (c_elems c) ms
  end.
Definition is_run (i : witem) : Prop := match i with WRun _ => True | WEvt _ _ _ => False end.
(** the energies of the particles that the generator has left stable; momenta and mass have the precision of the file *)
Definition stable_energies (energy : list Z -> Z -> Z) (ms : list mcp) : list Z :=
  map (fun m => energy (map as_float (mc_p m)) (as_float (mc_mass m))) (filter (fun m => mc_gen m =? 1) ms).
(** the particles of the events among the items *)
Inductive particles : list witem -> list (list mcp) -> Prop :=
| par_nil : particles [] []
| par_run i W l : is_run i -> particles W l -> particles (i :: W) l
| par_evt i W ms l : has_particles i ms -> particles W l -> particles (i :: W) (ms :: l).
(** events with particles and then one without *)
Inductive lacking : list witem -> Prop :=
| lack_run i W : is_run i -> lacking W -> lacking (i :: W)
| lack_evt i W ms : has_particles i ms -> lacking W -> lacking (i :: W)
| lack_here i W : no_particles i -> lacking (i :: W).
