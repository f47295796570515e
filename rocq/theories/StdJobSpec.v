(** * What the conversion of StdHep files should do *)

From Verif Require Import Bytes StrMap SioModel ObjModel ObjSpec EventModel FileModel HepModel HepSpec HepFormat HepUpdModel HepUpdSpec.

(** the results of [n] calls of readEvent of one of the two readers *)
Definition std_events (newer : bool) (third in_time : Z -> Z) (n : nat) (h : hep) : list (Res (option mccoll)) :=
  if newer then hep_events third in_time n h else hep_events_old third in_time n h.

(** the item is event number [k] of run 0 with the particles [c]: *)
Definition converted (base : addr) (k : Z) (c : mccoll) (i : witem) : Prop :=
  exists h e col, i = WEvt h e [] /\ ev_run e = 0 /\ ev_num e = k /\ ev_time e = 0 /\ ev_det e = str "Unknown" /\
    (* weight and process of the event, and nothing else *)
    ev_par e = mkP [(str "_idrup", [match cc_idrup c with Some i => i | None => 0 end])] [(str "_weight", [cc_weight c])] [] /\
    (* one collection, with the particles in their order *)
    ev_cols e = [(str "MCParticle", col)] /\ c_type col = str "MCParticle" /\ c_flag col = 0 /\
    p_flt (c_par col) = [(str "_weight", [cc_weight c])] /\
    p_int (c_par col) = match cc_idrup c with Some i => [(str "_idrup", [i])] | None => [] end /\ p_str (c_par col) = [] /\
    Zlen (c_elems col) = Zlen (cc_parts c) /\
    forall j o, at_ (cc_parts c) j o -> exists m, nth_error (c_elems col) (Z.to_nat j) = Some (base + j) /\ h (base + j) = Some m /\ is_particle base o m.

(** the run header *)
Definition std_run (inp : bytes) : runhdr :=
  mkRun 0 (str "Unknown") (str " file generated with LCIO stdhepjob from " ++ inp) [] (mkP [] [] []).

(** the collections in a file are numbered from 0 on *)
Definition in_order {A} (l : list A) : list (Z * A) := combine (map Z.of_nat (seq 0 (length l))) l.

(** such an item: particle number [j] is at the address [base + j] *)
Definition std_item (base : addr) (k : Z) (c : mccoll) : witem :=
  WEvt (fun x => option_map snd (if (base <=? x) && (x <? base + Zlen (cc_parts c))
          then option_map (fun o => (false, at_address base o)) (nth_error (cc_parts c) (Z.to_nat (x - base))) else None))
    (mkEvt 0 k 0 (str "Unknown") (mkP [(str "_idrup", [match cc_idrup c with Some i => i | None => 0 end])] [(str "_weight", [cc_weight c])] [])
       [(str "MCParticle", mkColl (str "MCParticle") 0
           (mkP (match cc_idrup c with None => [] | Some i => [(str "_idrup", [i])] end) [(str "_weight", [cc_weight c])] [])
           (map (fun i => base + Z.of_nat i) (seq 0 (length (cc_parts c)))))]) [].
(** all that is written *)
Definition std_items (inp : bytes) (base : addr) (cs : list mccoll) : list witem :=
  WRun (std_run inp) :: map (fun kc => std_item base (fst kc) (snd kc)) (in_order cs).

(** how the calls of the reader end before the number of events that is asked for is reached ([last] is the
    result of the last call) *)
Definition stop (third in_time : Z -> Z) (newer : bool) (max : Z) (cs : list mccoll) (h : hep) (last : Res (option mccoll)) : Prop :=
  std_events newer third in_time (S (length cs)) h = map (fun c => Ok (Some c)) cs ++ [last] /\ (forall c, last <> Ok (Some c)) /\ (max < 0 \/ Zlen cs < max).
(** or there are as many events as asked for *)
Definition limit (third in_time : Z -> Z) (newer : bool) (max : Z) (cs : list mccoll) (h : hep) : Prop :=
  std_events newer third in_time (length cs) h = map (fun c => Ok (Some c)) cs /\ Zlen cs = max.
