(** * The Fortran interface: events, run headers and relation navigators

    Model of src/cpp/src/CPPFORT/lcevt.cc, lcrhd.cc, lcrnv.cc and of the construction and deletion of collections in
    lccol.cc.  The classes behind them are those of ImplModel (LCEventImpl), EvAttrModel (LCRunHeaderImpl) and NavModel
    (LCRelationNavigator).  Pointers are addresses.  A function that returns the address of a vector is modelled by the
    elements of that vector.  A text that a function gets is what the [char*] points at; it is converted to a std::string,
    which ends at the first NUL.  Simplified: of a collection, its type, parameters, flag word and relations are kept;
    [new] always gives an address that was never used; setting numbers is not restricted to the range of [int]. *)
From Verif Require Import Bytes StrMap SioModel ObjModel EventModel ImplModel EvAttrModel NavModel FortModel.

(** the memory; a location without object is null or was deleted, cpointer.h:11-12 (addresses are numbers) *)
Record fmemory := mkFM {
  fm_next : addr; fm_evs : addr -> option estate; fm_rhs : addr -> option rstate; fm_navs : addr -> option nav;
  fm_cols : addr -> option relcoll }.
(** no code of its own: changing one kind of object of the memory *)
Definition with_ev (s : fmemory) (a : addr) (e : estate) : fmemory := mkFM (fm_next s) (put (fm_evs s) a e) (fm_rhs s) (fm_navs s) (fm_cols s).
Definition with_rh (s : fmemory) (a : addr) (r : rstate) : fmemory := mkFM (fm_next s) (fm_evs s) (put (fm_rhs s) a r) (fm_navs s) (fm_cols s).
Definition with_nav (s : fmemory) (a : addr) (n : nav) : fmemory := mkFM (fm_next s) (fm_evs s) (fm_rhs s) (put (fm_navs s) a n) (fm_cols s).
Definition with_col (s : fmemory) (a : addr) (c : relcoll) : fmemory := mkFM (fm_next s) (fm_evs s) (fm_rhs s) (fm_navs s) (put (fm_cols s) a c).
(** [delete], as used at lcevt.cc:22, lcrhd.cc:21, lcrnv.cc:23, lccol.cc:28 *)
Definition gone {A} (f : addr -> option A) (a : addr) : addr -> option A := fun b => if b =? a then None else f b.

(** the functions *)
Inductive fcall77 :=
| Lcevtcreate   (* lcevt.cc:15-18 *)
| Lcevtdelete (e : addr)   (* lcevt.cc:20-24 *)
| Lcevtgetrunnumber (e : addr)   (* lcevt.cc:26-29 *)
| Lcevtgeteventnumber (e : addr)   (* lcevt.cc:31-34 *)
| Lcevtgetdetectorname (e : addr)   (* lcevt.cc:36-39 *)
| Lcevtgetcollectionnames (e : addr)   (* lcevt.cc:41-44 *)
| Lcevtgettimestamp (e : addr)   (* lcevt.cc:51-55 *)
| Lcevtgetcollection (e : addr) (name : bytes)   (* lcevt.cc:57-62 *)
| Lcevtaddcollection (e c : addr) (name : bytes)   (* lcevt.cc:71-78 *)
| Lcevtremovecollection (e : addr) (name : bytes)   (* lcevt.cc:80-86 *)
| Lcevtsetrunnumber (e : addr) (v : Z)   (* lcevt.cc:105-109 *)
| Lcevtseteventnumber (e : addr) (v : Z)   (* lcevt.cc:111-115 *)
| Lcevtsetdetectorname (e : addr) (v : bytes)   (* lcevt.cc:117-121 *)
| Lcevtsettimestamp (e : addr) (v : Z)   (* lcevt.cc:123-127 *)
| Lccolcreate (ty : bytes)   (* lccol.cc:22-25 *)
| Lccoldelete (c : addr)   (* lccol.cc:26-30 *)
| Lcrhdcreate   (* lcrhd.cc:14-17 *)
| Lcrhddelete (r : addr)   (* lcrhd.cc:19-23 *)
| Lcrhdgetrunnumber (r : addr)   (* lcrhd.cc:24-27 *)
| Lcrhdgetdetectorname (r : addr)   (* lcrhd.cc:28-31 *)
| Lcrhdgetdescription (r : addr)   (* lcrhd.cc:32-35 *)
| Lcrhdgetactivesubdetectors (r : addr)   (* lcrhd.cc:38-41 *)
| Lcrhdsetrunnumber (r : addr) (v : Z)   (* lcrhd.cc:43-47 *)
| Lcrhdsetdetectorname (r : addr) (v : bytes)   (* lcrhd.cc:48-52 *)
| Lcrhdsetdescription (r : addr) (v : bytes)   (* lcrhd.cc:53-57 *)
| Lcrhdaddactivesubdetector (r : addr) (v : bytes)   (* lcrhd.cc:58-62 *)
| Lcrnvcreate (f t : bytes)   (* lcrnv.cc:15-19 *)
| Lcrnvdelete (n : addr)   (* lcrnv.cc:21-26 *)
| Lcrnvcreatefromcollection (c : addr)   (* lcrnv.cc:28-33 *)
| Lcrnvgetfromtype (n : addr)   (* lcrnv.cc:35-38 *)
| Lcrnvgettotype (n : addr)   (* lcrnv.cc:40-43 *)
| Lcrnvgetrelatedtoobjects (n o : addr)   (* lcrnv.cc:45-50 *)
| Lcrnvgetrelatedfromobjects (n o : addr)   (* lcrnv.cc:52-57 *)
| Lcrnvgetrelatedtoweights (n o : addr)   (* lcrnv.cc:59-64 *)
| Lcrnvgetrelatedfromweights (n o : addr)   (* lcrnv.cc:66-71 *)
| Lcrnvgaddrelation (n f t : addr) (w : Z)   (* lcrnv.cc:73-79 *)
| Lcrnvgremoverelation (n f t : addr)   (* lcrnv.cc:81-87 *)
| Lcrnvcreatecollection (n : addr).   (* lcrnv.cc:89-94 *)

(** what the caller gets *)
Inductive out77 := OStatus (z : Z) | OAddr (a : addr) | ONum (z : Z) | OText (s : bytes) | OTexts (l : list bytes) | ONums (l : list Z).
(** LCIO::SUCCESS and LCIO::ERROR, cmake/LCIO.h.in:99-100 *)
Definition SUCCESS77 : Z := 1.
Definition ERROR77 : Z := 0.

(** the destructor deletes the collections that are owned, src/cpp/src/IMPL/LCEventImpl.cc:25-33; deleting an
    object that is gone is undefined *)
Fixpoint delete_owned (cols : addr -> option relcoll) (kept : list addr) (l : list addr) : Res (addr -> option relcoll) :=
  match l with
  | [] => Ok cols
  | a :: l' =>
      if existsb (Z.eqb a) kept then delete_owned cols kept l'
      else match cols a with None => UB UBPrecondition | Some _ => delete_owned (gone cols a) kept l' end
  end.

Section Step.
Context (fadd : Z -> Z -> Z).

(** calls of LCEventImpl through a pointer, lcevt.cc:27 and so on: reading, and changing with a method that does not
    touch collections *)
Definition on_ev (s : fmemory) (a : addr) (k : estate -> Res out77 * fmemory) : Res out77 * fmemory :=
  match fm_evs s a with Some e => k e | None => (UB UBNullDeref, s) end.
Definition on_rh (s : fmemory) (a : addr) (k : rstate -> Res out77 * fmemory) : Res out77 * fmemory :=
  match fm_rhs s a with Some r => k r | None => (UB UBNullDeref, s) end.
Definition on_nav (s : fmemory) (a : addr) (k : nav -> Res out77 * fmemory) : Res out77 * fmemory :=
  match fm_navs s a with Some n => k n | None => (UB UBNullDeref, s) end.
(** one of the setters of LCEventImpl.cc:144-165, as used at lcevt.cc:105-127; an exception is not caught *)
Definition ev_setter (s : fmemory) (a : addr) (c : evcall) : Res out77 * fmemory :=
  on_ev s a (fun e =>
    let '(w, r) := ev_do (mkW e (fun _ => None) (fun _ => None)) c in
    (do _ <- r; Ok (OStatus SUCCESS77), with_ev s a (w_ev w))).
(** the same for addCollection and removeCollection, lcevt.cc:71-86: any exception gives LCIO::ERROR *)
Definition ev_caught (s : fmemory) (a : addr) (x : estate -> estate * Res unit) : Res out77 * fmemory :=
  on_ev s a (fun e =>
    let '(e', r) := x e in
    (match r with Ok _ => Ok (OStatus SUCCESS77) | Throw _ => Ok (OStatus ERROR77) | UB u => UB u end, with_ev s a e')).
(** the setters of LCRunHeaderImpl.cc:19-35, as used at lcrhd.cc:43-62 *)
Definition rh_setter (s : fmemory) (a : addr) (c : rhcall) : Res out77 * fmemory :=
  on_rh s a (fun r => let '(r', x) := rh_do r c in (do _ <- x; Ok (OStatus SUCCESS77), with_rh s a r')).

(** one call, with the lines at [fcall77] *)
Definition step77 (s : fmemory) (c : fcall77) : Res out77 * fmemory :=
  let a := fm_next s in
  match c with
  | Lcevtcreate => (Ok (OAddr a), mkFM (a + 1) (put (fm_evs s) a new_estate) (fm_rhs s) (fm_navs s) (fm_cols s))
  | Lcevtdelete e =>
      if e =? 0 then (Ok (OStatus SUCCESS77), s) else
      match fm_evs s e with
      | None => (UB UBPrecondition, s)
      | Some x => match delete_owned (fm_cols s) (es_notowned x) (map snd (es_cols x)) with
                  | Ok cols => (Ok (OStatus SUCCESS77), mkFM (fm_next s) (gone (fm_evs s) e) (fm_rhs s) (fm_navs s) cols)
                  | Throw t => (Throw t, s)
                  | UB u => (UB u, s)
                  end
      end
  | Lcevtgetrunnumber e => on_ev s e (fun x => (Ok (ONum (es_run x)), s))
  | Lcevtgeteventnumber e => on_ev s e (fun x => (Ok (ONum (es_num x)), s))
  | Lcevtgetdetectorname e => on_ev s e (fun x => (Ok (OText (c_str (es_det x))), s))
  | Lcevtgetcollectionnames e => on_ev s e (fun x => (Ok (OTexts (ev_names x)), s))
  | Lcevtgettimestamp e => on_ev s e (fun x => (Ok (ONum (es_time x)), s))
  | Lcevtgetcollection e name =>
      on_ev s e (fun x => (match ev_get x (c_str name) with Ok b => Ok (OAddr b) | Throw _ => Ok (OAddr 0) | UB u => UB u end, s))
  | Lcevtaddcollection e b name => ev_caught s e (fun x => ev_add x b (c_str name))
  | Lcevtremovecollection e name => ev_caught s e (fun x => ev_remove x (c_str name))
  | Lcevtsetrunnumber e v => ev_setter s e (V_setRunNumber v)
  | Lcevtseteventnumber e v => ev_setter s e (V_setEventNumber v)
  | Lcevtsetdetectorname e v => ev_setter s e (V_setDetectorName (c_str v))
  | Lcevtsettimestamp e v => ev_setter s e (V_setTimeStamp v)
  | Lccolcreate ty => (Ok (OAddr a), mkFM (a + 1) (fm_evs s) (fm_rhs s) (fm_navs s) (put (fm_cols s) a (mkRelColl (c_str ty) no_params 0 [])))
  | Lccoldelete b =>
      if b =? 0 then (Ok (OStatus SUCCESS77), s) else
      match fm_cols s b with
      | None => (UB UBPrecondition, s)
      | Some _ => (Ok (OStatus SUCCESS77), mkFM (fm_next s) (fm_evs s) (fm_rhs s) (fm_navs s) (gone (fm_cols s) b))
      end
  | Lcrhdcreate => (Ok (OAddr a), mkFM (a + 1) (fm_evs s) (put (fm_rhs s) a new_rstate) (fm_navs s) (fm_cols s))
  | Lcrhddelete r =>
      if r =? 0 then (Ok (OStatus SUCCESS77), s) else
      match fm_rhs s r with
      | None => (UB UBPrecondition, s)
      | Some _ => (Ok (OStatus SUCCESS77), mkFM (fm_next s) (fm_evs s) (gone (fm_rhs s) r) (fm_navs s) (fm_cols s))
      end
  | Lcrhdgetrunnumber r => on_rh s r (fun x => (Ok (ONum (rh_run (rs_hdr x))), s))
  | Lcrhdgetdetectorname r => on_rh s r (fun x => (Ok (OText (c_str (rh_det (rs_hdr x)))), s))
  | Lcrhdgetdescription r => on_rh s r (fun x => (Ok (OText (c_str (rh_desc (rs_hdr x)))), s))
  | Lcrhdgetactivesubdetectors r => on_rh s r (fun x => (Ok (OTexts (rh_subs (rs_hdr x))), s))
  | Lcrhdsetrunnumber r v => rh_setter s r (R_setRunNumber v)
  | Lcrhdsetdetectorname r v => rh_setter s r (R_setDetectorName (c_str v))
  | Lcrhdsetdescription r v => rh_setter s r (R_setDescription (c_str v))
  | Lcrhdaddactivesubdetector r v => rh_setter s r (R_addActiveSubdetector (c_str v))
  | Lcrnvcreate f t => (Ok (OAddr a), mkFM (a + 1) (fm_evs s) (fm_rhs s) (put (fm_navs s) a (mkNav [] [] (c_str f) (c_str t))) (fm_cols s))
  | Lcrnvdelete n =>
      if n =? 0 then (Ok (OStatus SUCCESS77), s) else
      match fm_navs s n with
      | None => (UB UBPrecondition, s)
      | Some _ => (Ok (OStatus SUCCESS77), mkFM (fm_next s) (fm_evs s) (fm_rhs s) (gone (fm_navs s) n) (fm_cols s))
      end
  | Lcrnvcreatefromcollection b =>
      match fm_cols s b with
      | None => (UB UBNullDeref, s)
      | Some k => match nav_of_collection fadd (k_type k) (k_par k) (map Some (k_rels k)) with
                  | Ok n => (Ok (OAddr a), mkFM (a + 1) (fm_evs s) (fm_rhs s) (put (fm_navs s) a n) (fm_cols s))
                  | Throw t => (Throw t, s)
                  | UB u => (UB u, s)
                  end
      end
  | Lcrnvgetfromtype n => on_nav s n (fun x => (Ok (OText (c_str (n_from x))), s))
  | Lcrnvgettotype n => on_nav s n (fun x => (Ok (OText (c_str (n_to x))), s))
  | Lcrnvgetrelatedtoobjects n o => on_nav s n (fun x => let '(x', l) := nav_to_objects x o in (Ok (ONums l), with_nav s n x'))
  | Lcrnvgetrelatedfromobjects n o => on_nav s n (fun x => let '(x', l) := nav_from_objects x o in (Ok (ONums l), with_nav s n x'))
  | Lcrnvgetrelatedtoweights n o => on_nav s n (fun x => let '(x', l) := nav_to_weights x o in (Ok (ONums l), with_nav s n x'))
  | Lcrnvgetrelatedfromweights n o => on_nav s n (fun x => let '(x', l) := nav_from_weights x o in (Ok (ONums l), with_nav s n x'))
  | Lcrnvgaddrelation n f t w =>
      on_nav s n (fun x => match nav_add fadd x f t w with Ok x' => (Ok (OStatus SUCCESS77), with_nav s n x') | Throw e => (Throw e, s) | UB u => (UB u, s) end)
  | Lcrnvgremoverelation n f t =>
      on_nav s n (fun x => match nav_remove x f t with Ok x' => (Ok (OStatus SUCCESS77), with_nav s n x') | Throw e => (Throw e, s) | UB u => (UB u, s) end)
  | Lcrnvcreatecollection n =>
      on_nav s n (fun x => match nav_collection x with
                           | Ok k => (Ok (OAddr a), mkFM (a + 1) (fm_evs s) (fm_rhs s) (fm_navs s) (put (fm_cols s) a k))
                           | Throw e => (Throw e, s) | UB u => (UB u, s) end)
  end.

(** a Fortran program: the calls that were made with their results; an exception ends it (no code of its own) *)
Fixpoint run77 (s : fmemory) (cs : list fcall77) : list (fcall77 * Res out77) * fmemory :=
  match cs with
  | [] => ([], s)
  | c :: cs' =>
      let '(r, s1) := step77 s c in
      match r with
      | Ok _ => let '(h, s2) := run77 s1 cs' in ((c, r) :: h, s2)
      | _ => ([(c, r)], s1)
      end
  end.
End Step.
