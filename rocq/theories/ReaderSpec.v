(** * SIOReader: specification *)

From Verif Require Import Bytes StrMap SioModel ObjModel EventModel IndexModel FileModel FileSpec StreamSpec ReaderModel.

(** ** Listeners *)

(** who is registered after the calls [h]: the last call for [l] registers it *)
Definition evt_registered (h : list rop) (l : Z) : Prop := exists h1 h2, h = h1 ++ OAddEvt l :: h2 /\ ~ In (ODropEvt l) h2.
Definition run_registered (h : list rop) (l : Z) : Prop := exists h1 h2, h = h1 ++ OAddRun l :: h2 /\ ~ In (ODropRun l) h2.
(** only registered listeners are removed *)
Definition proper (ops : list rop) : Prop := forall h1 h2 l,
  (ops = h1 ++ ODropEvt l :: h2 -> evt_registered h1 l) /\ (ops = h1 ++ ODropRun l :: h2 -> run_registered h1 l).

(** what the lists contain *)
Definition listed (h : list rop) (s : sio_reader) : Prop :=
  Sorted.StronglySorted Z.lt (sr_evts s) /\ Sorted.StronglySorted Z.lt (sr_runs s) /\
  (forall l, In l (sr_evts s) <-> evt_registered h l) /\ (forall l, In l (sr_runs s) <-> run_registered h l).

Section Notes.
Context (change_evt : Z -> levent -> levent) (change_run : Z -> runhdr -> runhdr).

(** [k] is the list of the listeners in the order of their addresses.  The i-th one may change the record
    first, as it was left by the ones before it, and gets it read only then. *)
Definition told {A} (mk : A -> call) (change : Z -> A -> A) (who : Z -> Prop) (a : A) (notes : list note) : Prop :=
  exists k, Sorted.StronglySorted Z.lt k /\ (forall l, In l k <-> who l) /\ length notes = (2 * length k)%nat /\
    forall i l, nth_error k i = Some l ->
      let seen j := fold_left (fun x l => change l x) (firstn j k) a in
      nth_error notes (2 * i) = Some (mkNote l true false (mk (seen i))) /\
      nth_error notes (2 * i + 1) = Some (mkNote l false true (mk (seen (S i)))).
Definition told_call (h : list rop) (c : call) (notes : list note) : Prop :=
  match c with
  | CEvt e => told CEvt change_evt (evt_registered h) e notes
  | CRun r => told CRun change_run (run_registered h) r notes
  end.

(** calls that change the lists of listeners *)
Definition is_change (o : rop) : Prop := match o with OAddEvt _ | ODropEvt _ | OAddRun _ | ODropRun _ => True | _ => False end.
(** the replies to a program that registers and removes listeners and calls readStream, given what
    MT::LCReader::readStream delivers; [h] are the calls before *)
Inductive notified : list rop -> list rop -> list (Res unit * list (nat * call)) -> list reply -> Prop :=
| No_nil h : notified h [] [] []
| No_change h o ops ps rs : is_change o -> notified (h ++ [o]) ops ps rs -> notified h (o :: ops) ps (PDone :: rs)
| No_stream h max ops x cs ps rs notes : Forall2 (told_call h) (map snd cs) notes ->
    notified (h ++ [OStream max]) ops ps rs -> notified h (OStream max :: ops) ((x, cs) :: ps) (PCalls x (concat notes) :: rs).

End Notes.
(** the limits given to readStream *)
Definition limits (ops : list rop) : list (nat * Z) := flat_map (fun o => match o with OStream m => [(1%nat, m)] | _ => [] end) ops.
Definition streaming (o : rop) : Prop := is_change o \/ exists m, o = OStream m.

(** ** Records that were returned *)

(** the calls for reading *)
Definition op_of (s : step) : rop :=
  match s with Next true => ONextEvt | Next false => ONextRun | Skip n => OSkip n | GetEvt run num => OGetEvt run num | GetRun run => OGetRun run end.
Definition reply_of (r : result) : reply :=
  match r with REvt e => PEvt e | RRun h => PRun h | RDone => PDone | RThrow e => PThrow e | RUB k => PUB k end.
Definition reads_evt (s : step) : bool := match s with Next true | GetEvt _ _ => true | _ => false end.
Definition reads_run (s : step) : bool := match s with Next false | GetRun _ => true | _ => false end.
(** the results of the calls of one kind so far, oldest first, end with a record and an exception *)
Definition spoiled (h : list result) : Prop :=
  exists h' x e, h = h' ++ [x; RThrow e] /\ ((exists l, x = REvt (Some l)) \/ (exists r, x = RRun (Some r))).
Definition add (b : bool) (x : result) (h : list result) : list result := if b then h ++ [x] else h.

(** the replies of SIOReader, given the results of MT::LCReader: they are the same up to the first call
    of a kind whose last call threw while the one before had returned a record *)
Inductive wrapped : list result -> list result -> list step -> list result -> list reply -> Prop :=
| Wr_nil he hr : wrapped he hr [] [] []
| Wr_twice he hr s st p ps : (reads_evt s = true /\ spoiled he) \/ (reads_run s = true /\ spoiled hr) ->
    wrapped he hr (s :: st) (p :: ps) [PUB UBPrecondition]
| Wr_undefined he hr s st k : ~ (reads_evt s = true /\ spoiled he) -> ~ (reads_run s = true /\ spoiled hr) ->
    wrapped he hr (s :: st) [RUB k] [PUB k]
| Wr_step he hr s st p ps rs : ~ (reads_evt s = true /\ spoiled he) -> ~ (reads_run s = true /\ spoiled hr) ->
    (forall k, p <> RUB k) ->
    wrapped (add (reads_evt s) p he) (add (reads_run s) p hr) st ps rs -> wrapped he hr (s :: st) (p :: ps) (reply_of p :: rs).

(** the reader behind a program *)
Fixpoint sio_end (uncomp : bytes -> option bytes) (srt : forall A : Type, (A -> Z) -> list A -> list A) (ignore_null : bool)
  (change_evt : Z -> levent -> levent) (change_run : Z -> runhdr -> runhdr) (d : disk) (l : list rop) (s : sio_reader) : sio_reader :=
  match l with
  | [] => s
  | o :: l' => sio_end uncomp srt ignore_null change_evt change_run d l' (snd (sio_step uncomp srt ignore_null change_evt change_run d o s))
  end.
Definition op_reads_evt (o : rop) : Prop := match o with ONextEvt | OGetEvt _ _ => True | _ => False end.
Definition op_reads_run (o : rop) : Prop := match o with ONextRun | OGetRun _ => True | _ => False end.
