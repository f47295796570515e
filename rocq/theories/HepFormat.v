(** * The format of StdHep files

    XDR: numbers have four or eight bytes, the most significant first; a string or an array is preceded by
    its length, and a string is followed by up to three zeros. *)

From Verif Require Import Bytes SioModel Ieee ObjModel HepModel.

Definition w_long (v : Z) : bytes := be 4 v.
Definition w_double (v : Z) : bytes := be 8 v.
Definition w_string (s : bytes) : bytes := w_long (Zlen s) ++ s ++ zeros (Z.to_nat ((- Zlen s) mod 4)).
Definition w_longs (l : list Z) : bytes := w_long (Zlen l) ++ flat_map w_long l.
Definition w_doubles (l : list Z) : bytes := w_long (Zlen l) ++ flat_map w_double l.
Definition short_string (s : bytes) : Prop := Zlen s < two31 - 4.
Definition long_list (l : list Z) : Prop := Zlen l < two31 /\ Forall is_i32 l.
Definition double_list (l : list Z) : Prop := Zlen l < two31 /\ Forall is_u64 l.

(** what version 4 of the common block adds: weight, couplings, scale, spins, colour flow, process *)
Record gen4 := mkG4 { g_wgt : Z; g_qed : Z; g_qcd : Z; g_scale : list Z; g_spin : list Z; g_color : list Z; g_idrup : Z }.
(** a generated event: its number, the number of particles, status, codes, mothers, daughters, momenta, vertices *)
Record generated := mkGen { g_num : Z; g_n : Z; g_ist : list Z; g_id : list Z; g_mo : list Z; g_da : list Z; g_p : list Z; g_v : list Z; g_4 : option gen4 }.
Definition gen4_ok (g : gen4) : Prop := is_u64 (g_wgt g) /\ double_list (g_scale g) /\ double_list (g_spin g) /\ long_list (g_color g) /\ is_i32 (g_idrup g).
Definition gen_ok (g : generated) : Prop :=
  is_i32 (g_num g) /\ is_i32 (g_n g) /\ long_list (g_ist g) /\ long_list (g_id g) /\ long_list (g_mo g) /\ long_list (g_da g) /\ double_list (g_p g) /\ double_list (g_v g) /\
  match g_4 g with Some v => gen4_ok v | None => True end.
Definition w_gen4 (g : gen4) : bytes :=
  w_double (g_wgt g) ++ w_double (g_qed g) ++ w_double (g_qcd g) ++ w_doubles (g_scale g) ++ w_doubles (g_spin g) ++ w_longs (g_color g) ++ w_long (g_idrup g).
Definition w_gen (g : generated) : bytes :=
  w_long (g_num g) ++ w_long (g_n g) ++ w_longs (g_ist g) ++ w_longs (g_id g) ++ w_longs (g_mo g) ++ w_longs (g_da g) ++ w_doubles (g_p g) ++ w_doubles (g_v g) ++
  match g_4 g with Some v => w_gen4 v | None => [] end.

(** what an event record holds: a generated event; the begin or the end of a run, which is 36 bytes; nothing *)
Inductive content := Event (g : generated) | RunInfo (begins : bool) (b : bytes) | Nothing.
(** an event record: total size, version, event, store, run, triggers; number of n-tuples; pointers to the block, more block identifiers;
    the header of the block: its identifier, total size, version *)
Record record := mkRec { r_ntot : Z; r_version : bytes; r_evt : Z; r_store : Z; r_run : Z; r_trig : Z; r_nt : Z; r_ptrs : list Z; r_more : list Z;
  r_bid : Z; r_bntot : Z; r_bversion : bytes; r_content : content }.
Definition block_ids (c : content) : list Z :=
  match c with
  | Event g => [match g_4 g with Some _ => 201 | None => 101 end]
  | RunInfo begins _ => [if begins then 106 else 107]
  | Nothing => []
  end.
(** version 2 adds n-tuples, of which there are none, and omits empty arrays *)
Definition version2 (v : bytes) : bool := match v with c :: _ => Zb c =? 50 | [] => false end.
Definition w_record (r : record) : bytes :=
  let ids := block_ids (r_content r) ++ r_more r in
  w_long 4 ++ w_long (r_ntot r) ++ w_string (r_version r) ++ w_long (r_evt r) ++ w_long (r_store r) ++ w_long (r_run r) ++ w_long (r_trig r) ++
  w_long (Zlen (block_ids (r_content r))) ++ w_long (Zlen ids) ++
  (if version2 (r_version r) then w_long (r_nt r) ++ w_long 0 ++ (match ids with [] => [] | _ => w_longs ids ++ w_longs (r_ptrs r) end)
   else w_longs ids ++ w_longs (r_ptrs r)) ++
  match r_content r with
  | Event g => w_long (r_bid r) ++ w_long (r_bntot r) ++ w_string (r_bversion r) ++ w_gen g
  | RunInfo _ b => w_long (r_bid r) ++ w_long (r_bntot r) ++ w_string (r_bversion r) ++ b
  | Nothing => []
  end.
Definition record_ok (r : record) : Prop :=
  short_string (r_version r) /\ short_string (r_bversion r) /\ long_list (block_ids (r_content r) ++ r_more r) /\ long_list (r_ptrs r) /\
  match r_content r with Event g => gen_ok g | RunInfo _ b => Zlen b = 36 | Nothing => True end.

(** an event table: total size, version, position of the next table, four arrays, the positions of the records; and the records *)
Record etable := mkTab { et_ntot : Z; et_version : bytes; et_next : Z; et_a : list Z; et_b : list Z; et_c : list Z; et_d : list Z; et_ptrs : list Z; et_recs : list record }.
Definition w_table (t : etable) : bytes :=
  w_long 2 ++ w_long (et_ntot t) ++ w_string (et_version t) ++ w_long (et_next t) ++ w_long (Zlen (et_ptrs t)) ++
  w_longs (et_a t) ++ w_longs (et_b t) ++ w_longs (et_c t) ++ w_longs (et_d t) ++ w_longs (et_ptrs t).
Definition table_ok (t : etable) : Prop :=
  short_string (et_version t) /\ is_i32 (et_next t) /\ long_list (et_a t) /\ long_list (et_b t) /\ long_list (et_c t) /\ long_list (et_d t) /\ long_list (et_ptrs t).

(** the file header: total size, version, title, comment, date, closing date, four numbers, number of blocks, identifiers and names of the blocks *)
Record hheader := mkHd { hd_ntot : Z; hd_version : bytes; hd_title : bytes; hd_comment : bytes; hd_date : bytes; hd_closing : bytes;
  hd_expected : Z; hd_events : Z; hd_first : Z; hd_dim : Z; hd_nblocks : Z; hd_ids : list Z; hd_names : list bytes }.
(** versions 1.00 and 2.00 have no closing date *)
Definition old_version (v : bytes) : bool := bytes_eqb v (str "2.00") || bytes_eqb v (str "1.00").
Definition w_header (h : hheader) : bytes :=
  w_long 1 ++ w_long (hd_ntot h) ++ w_string (hd_version h) ++ w_string (hd_title h) ++ w_string (hd_comment h) ++ w_string (hd_date h) ++
  (if old_version (hd_version h) then [] else w_string (hd_closing h)) ++
  w_long (hd_expected h) ++ w_long (hd_events h) ++ w_long (hd_first h) ++ w_long (hd_dim h) ++ w_long (hd_nblocks h) ++
  (if version2 (hd_version h) then w_long 0 else []) ++ w_longs (hd_ids h) ++ flat_map w_string (hd_names h).
Definition header_ok (h : hheader) : Prop :=
  short_string (hd_version h) /\ ~ In x00 (hd_version h) /\ short_string (hd_title h) /\ short_string (hd_comment h) /\ short_string (hd_date h) /\ short_string (hd_closing h) /\
  long_list (hd_ids h) /\ Forall short_string (hd_names h) /\ length (hd_names h) = length (hd_ids h).

(** [b] lies at position [pos] *)
Definition lies (f : bytes) (pos : Z) (b : bytes) : Prop := exists a c, f = a ++ b ++ c /\ Zlen a = pos.
(** the records of the tables lie where the tables say, and every table but the last one says where the next one lies *)
Fixpoint tables_lie (f : bytes) (t : etable) (more : list etable) : Prop :=
  table_ok t /\ Forall2 (fun p r => lies f p (w_record r) /\ record_ok r) (et_ptrs t) (et_recs t) /\
  match more with
  | [] => et_next t = -2
  | t' :: more' => 0 <= et_next t /\ lies f (et_next t) (w_table t') /\ tables_lie f t' more'
  end.
(** [f] is a StdHep file: the first table follows the header; there are not more tables than bytes *)
Definition stdhep_file (f : bytes) (h : hheader) (t : etable) (more : list etable) : Prop :=
  lies f 0 (w_header h ++ w_table t) /\ header_ok h /\ tables_lie f t more /\ (length more <= length f)%nat.

(** the events of a file: the records that hold events.  Weight and process of an event without them are
    those of the one before. *)
Definition event_of (wgt idrup : Z) (g : generated) : hev :=
  mkHev false (g_num g) (g_n g) (Some (g_ist g)) (Some (g_id g)) (Some (g_mo g)) (Some (g_da g)) (Some (g_p g)) (Some (g_v g))
    (match g_4 g with Some v => g_wgt v | None => wgt end) (option_map g_scale (g_4 g)) (option_map g_spin (g_4 g)) (option_map g_color (g_4 g))
    (match g_4 g with Some v => g_idrup v | None => idrup end).
Fixpoint events_of (wgt idrup : Z) (l : list record) : list hev :=
  match l with
  | [] => []
  | r :: l' =>
      match r_content r with
      | Event g => let e := event_of wgt idrup g in e :: events_of (he_wgt e) (he_idrup e) l'
      | _ => events_of wgt idrup l'
      end
  end.
(** what is returned for an event *)
Definition collection_of (third in_time : Z -> Z) (e : hev) : Res (option mccoll) :=
  do l <- particles third in_time e;
  Ok (Some (mkMCC (if he_idrup e =? 0 then None else Some (s32 (he_idrup e))) (d2f (he_wgt e)) l)).
(** the results of [n] calls of readEvent *)
Fixpoint hep_events (third in_time : Z -> Z) (n : nat) (h : hep) : list (Res (option mccoll)) :=
  match n with
  | O => []
  | S n' =>
      match hep_event third in_time h with
      | (r, None) => [r]
      | (r, Some h') => r :: hep_events third in_time n' h'
      end
  end.
