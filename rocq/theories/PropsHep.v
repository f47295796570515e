(** * StdHep files (C43, C44, C45, C46) *)

From Verif Require Import Bytes SioModel Ieee ObjModel HepModel HepSpec HepProofs HepCharge HepFormat HepFile HepExamples.

(** ** C43: family links *)

(** Whatever the state of the reader and the contents of the file: the parents and the daughters in the
    collection that readEvent returns mirror each other, without duplicates, and are particles of the
    collection. *)
Theorem C43_mirrored : forall third in_time h c h', hep_event third in_time h = (Ok (Some c), h') -> mirrored (cc_parts c).
Proof. exact hep_event_mirrored. Qed.
Print Assumptions C43_mirrored.

(** There is one particle for every line; all links that are declared by the parent's range of daughters
    or by the daughter's range of mothers are there; there are no others but those that repair decays. *)
Theorem C43_links : forall third in_time h c h', hep_event third in_time h = (Ok (Some c), Some h') ->
  Zlen (cc_parts c) = he_n (h_evt h') /\
  (forall p d, 0 <= p < he_n (h_evt h') -> declared (h_evt h') p d -> linked (cc_parts c) p d) /\
  (forall p d, 0 <= d < he_n (h_evt h') -> mother (h_evt h') d p -> linked (cc_parts c) p d) /\
  (forall p d, linked (cc_parts c) p d -> declared (h_evt h') p d \/ mother (h_evt h') d p \/ repairs (h_evt h') p d).
Proof. exact hep_event_links. Qed.
Print Assumptions C43_links.

(** Every particle has the attributes of its line, the collection the weight and the process of the event. *)
Theorem C43_attributes : forall third in_time h c h', hep_event third in_time h = (Ok (Some c), Some h') ->
  (forall i o, at_ (cc_parts c) i o -> attributes_of third in_time (h_evt h') i o) /\
  cc_weight c = d2f (he_wgt (h_evt h')) /\ cc_idrup c = (if he_idrup (h_evt h') =? 0 then None else Some (s32 (he_idrup (h_evt h')))).
Proof. exact hep_event_attributes. Qed.
Print Assumptions C43_attributes.

(** Records with complete tables whose entries point to lines of the record are accepted. *)
Theorem C43_accepted : forall third in_time e, tables_ok e -> exists l, particles third in_time e = Ok l.
Proof. exact particles_ok. Qed.
Print Assumptions C43_accepted.

Ltac lines H := match type of H with 0 <= ?i < 4 => assert (i = 0 \/ i = 1 \/ i = 2 \/ i = 3) as [-> | [-> | [-> | ->]]] by lia
  | 0 <= ?i < 5 => assert (i = 0 \/ i = 1 \/ i = 2 \/ i = 3 \/ i = 4) as [-> | [-> | [-> | [-> | ->]]]] by lia end.
(** the two events of the example file *)
Example C43_tables : tables_ok (event_of 0 0 ex_gen1) /\ tables_ok (event_of 0 0 ex_gen2).
Proof.
  split; unfold tables_ok, has, event_of, ex_gen1, ex_gen2; cbn [he_n he_id he_ist he_p he_v he_mo he_da he_scale he_spin he_color g_n g_id g_ist g_p g_v g_mo g_da g_4 option_map g_scale g_spin g_color];
  (split; [lia|]; repeat (split; [eexists; split; [reflexivity|vm_compute; discriminate]|]); split; [(left; reflexivity) || (right; split; eexists; (split; [reflexivity|vm_compute; discriminate]))|]; split).
  1, 3: intros i Hi; lines Hi; eexists; vm_compute; reflexivity.
  all: intros i Hi; lines Hi; (split; [intros _; split; vm_compute; reflexivity|]); (split; [vm_compute; reflexivity|]); (split; [vm_compute; reflexivity|]);
    intros K; first [vm_compute in K; discriminate K|split; vm_compute; discriminate].
Qed.
Example C43_case :
  family (first_event ex_hep) = [([], [1]); ([0], [2; 3]); ([1], []); ([1], [])] /\
  family (first_event (one_event ex_gen2)) = [([], [2]); ([], [2]); ([0; 1], [3; 4]); ([2], []); ([2], [])].
Proof. split; vm_compute; reflexivity. Qed.

(** A mother is not linked if it is the first line and the only mother. *)
Theorem C43_first_line_refuted : exists g, g_mo g = [0; 0; 1; 0] /\ g_da g = [0; 0; 0; 0] /\
  family (first_event (one_event g)) = [([], []); ([], [])].
Proof. exists (mkGen 1 2 [2; 1] [11; 11] [0; 0; 1; 0] [0; 0; 0; 0] (repeat one 10) (repeat one 8) None). split; [reflexivity|]. split; [reflexivity|]. vm_compute. reflexivity. Qed.
Print Assumptions C43_first_line_refuted.

(** A range of daughters that reaches beyond the record, or a mother beyond the record, or a state with
    code 94 without mother: the particle that does not exist is accessed. *)
Theorem C43_dangling_refuted : exists g1 g2 g3,
  (g_n g1 = 2 /\ g_da g1 = [2; 3; 0; 0] /\ first_event (one_event g1) = UB UBOutOfBounds) /\
  (g_n g2 = 2 /\ g_mo g2 = [0; 0; 3; 0] /\ first_event (one_event g2) = UB UBOutOfBounds) /\
  (g_n g3 = 2 /\ g_id g3 = [1; 94] /\ g_mo g3 = [0; 0; 0; 0] /\ first_event (one_event g3) = UB UBOutOfBounds).
Proof.
  exists (mkGen 1 2 [2; 1] [11; 11] [0; 0; 1; 0] [2; 3; 0; 0] (repeat one 10) (repeat one 8) None),
         (mkGen 1 2 [2; 1] [11; 11] [0; 0; 3; 0] [0; 0; 0; 0] (repeat one 10) (repeat one 8) None),
         (mkGen 1 2 [2; 2] [1; 94] [0; 0; 0; 0] [0; 0; 0; 0] (repeat one 10) (repeat one 8) None).
  split; [|split]; (split; [reflexivity|]; split; [reflexivity|]); [vm_compute; reflexivity|vm_compute; reflexivity|]. split; [reflexivity|]. vm_compute. reflexivity.
Qed.
Print Assumptions C43_dangling_refuted.

(** ** C44: charges *)

(** The charge of the antiparticle is the opposite one. *)
Theorem C44_antiparticle : forall p, - two31 < p < two31 -> three_charge (- p) = do c <- three_charge p; Ok (- c).
Proof. exact antiparticle_charge. Qed.
Print Assumptions C44_antiparticle.

(** The charge of a hadron is that of its quarks, for all excitations and spins. *)
Theorem C44_baryons : forall n a b c j, 0 <= n < 1000 -> is_quark a -> is_quark b -> is_quark c -> 1 <= j <= 9 ->
  three_charge (baryon_code n a b c j) = Ok (quark a + quark b + quark c).
Proof. exact baryon_charge. Qed.
Print Assumptions C44_baryons.
Theorem C44_mesons : forall n b c j, 0 <= n < 1000 -> 1 <= c <= b -> b <= 6 -> 1 <= j <= 9 ->
  three_charge (meson_code n b c j) = Ok (if Z.even b then quark b - quark c else quark c - quark b).
Proof. exact meson_charge. Qed.
Print Assumptions C44_mesons.
Theorem C44_diquarks : forall a b j, is_quark a -> is_quark b -> 1 <= j <= 9 -> three_charge (diquark_code a b j) = Ok (quark a + quark b).
Proof. exact diquark_charge. Qed.
Print Assumptions C44_diquarks.
Theorem C44_bounded : forall p c, three_charge p = Ok c -> -6 <= c <= 6.
Proof. exact charge_neutral_or_bounded. Qed.
Print Assumptions C44_bounded.

(** proton, Delta++, an excited Lambda, K+, D_s, B0; electron, its neutrino, W+, a squark *)
Example C44_case : baryon_code 0 2 2 1 2 = 2212 /\ three_charge 2212 = Ok 3 /\ three_charge (-2212) = Ok (-3) /\ baryon_code 0 2 2 2 4 = 2224 /\ three_charge 2224 = Ok 6 /\
  baryon_code 10 3 1 2 2 = 103122 /\ three_charge 103122 = Ok 0 /\ meson_code 0 3 2 1 = 321 /\ three_charge 321 = Ok 3 /\ three_charge 431 = Ok 3 /\ three_charge 511 = Ok 0 /\
  three_charge 11 = Ok (-3) /\ three_charge 12 = Ok 0 /\ three_charge 24 = Ok 3 /\ three_charge 1000002 = Ok 2.
Proof. vm_compute. repeat split. Qed.

(** Codes that are not those of a particle lead to an access outside the table of charges, and the
    smallest int cannot be negated; both may come from a file. *)
Theorem C44_codes_refuted : exists g1 g2, g_id g1 = [201] /\ first_event (one_event g1) = UB UBOutOfBounds /\
  g_id g2 = [- two31] /\ first_event (one_event g2) = UB UBOverflow.
Proof.
  exists (mkGen 1 1 [1] [201] [0; 0] [0; 0] (repeat one 5) (repeat one 4) None), (mkGen 1 1 [1] [- two31] [0; 0] [0; 0] (repeat one 5) (repeat one 4) None).
  split; [reflexivity|]. split; [vm_compute; reflexivity|]. split; [reflexivity|vm_compute; reflexivity].
Qed.
Print Assumptions C44_codes_refuted.

(** ** C45: the events of a file *)

(** The calls of readEvent return the events of the file, in the order of the tables and each one once,
    and then nothing for ever.  Records without an event and empty tables are skipped. *)
Theorem C45_events : forall third in_time f hd t more, stdhep_file f hd t more ->
  exists h, hep_open (Some f) = Ok h /\ forall n, hep_events third in_time n h =
    firstn n (map (collection_of third in_time) (events_of 0 0 (et_recs t ++ flat_map et_recs more)) ++ repeat (Ok None) n).
Proof. exact stdhep_events. Qed.
Print Assumptions C45_events.

(** a file with three tables, the second one empty, and three records, the first one not an event *)
Example C45_case : stdhep_file ex_hep ex_hd ex_t1 [ex_t2; ex_t3] /\
  events_of 0 0 (et_recs ex_t1 ++ flat_map et_recs [ex_t2; ex_t3]) = [event_of 0 0 ex_gen1; event_of two_half 91 ex_gen2] /\
  (do h <- hep_open (Some ex_hep);
   Ok (map (fun r => match r with Ok (Some c) => Some (length (cc_parts c), cc_idrup c, cc_weight c) | _ => None end) (hep_events (fun n => n) (fun t => t) 4 h))) =
  Ok [Some (4%nat, Some 91, 0x40200000); Some (5%nat, Some 91, 0x40200000); None; None].
Proof. split; [exact ex_stdhep|]. split; vm_compute; reflexivity. Qed.

(** An event without weight and process gets those of the event before: the same record gives different
    collections, depending on what was read before. *)
Theorem C45_stale_weight_refuted : exists g, g_4 g = None /\
  match first_event (one_event g) with Ok (Some c) => cc_weight c = 0 /\ cc_idrup c = None | _ => False end /\
  match nth 1 (match hep_open (Some ex_hep) with Ok h => hep_events (fun n => n) (fun t => t) 2 h | _ => [] end) (Ok None) with Ok (Some c) => cc_weight c = 0x40200000 /\ cc_idrup c = Some 91 | _ => False end /\
  r_content (nth 0 (et_recs ex_t3) (ex_rec Nothing)) = Event g.
Proof. exists ex_gen2. split; [reflexivity|]. split; [vm_compute; split; reflexivity|]. split; [vm_compute; split; reflexivity|reflexivity]. Qed.
Print Assumptions C45_stale_weight_refuted.

(** ** C46: any file *)

(** A file that does not begin with a file header is refused; one whose first strings are complete is
    opened or refused. *)
Theorem C46_open_other_partial : forall f, (forall c, ~ lies f 0 (w_long 1 ++ c)) -> exists e, hep_open (Some f) = Throw e.
Proof. exact open_other. Qed.
Print Assumptions C46_open_other_partial.
Theorem C46_open_partial : forall f hd c k, short_string (hd_version hd) -> short_string (hd_title hd) -> short_string (hd_comment hd) -> short_string (hd_date hd) ->
  lies f 0 (w_long 1 ++ w_long (hd_ntot hd) ++ w_string (hd_version hd) ++ w_string (hd_title hd) ++ w_string (hd_comment hd) ++ w_string (hd_date hd) ++ c) ->
  hep_open (Some f) <> UB k.
Proof. exact open_any. Qed.
Print Assumptions C46_open_partial.

(** the example file, cut after the header; a file that begins with another block *)
Example C46_case : (exists c, lies (firstn 120 ex_hep) 0 (w_long 1 ++ w_long (hd_ntot ex_hd) ++ w_string (hd_version ex_hd) ++ w_string (hd_title ex_hd) ++ w_string (hd_comment ex_hd) ++ w_string (hd_date ex_hd) ++ c)) /\
  hep_open (Some (firstn 120 ex_hep)) = Throw LIOException /\ (forall c, ~ lies (w_long 7) 0 (w_long 1 ++ c)) /\ hep_open (Some (w_long 7)) = Throw LIOException.
Proof.
  split; [|split; [vm_compute; reflexivity|split; [|vm_compute; reflexivity]]].
  - exists (skipn 48 (firstn 120 ex_hep)), [], []. split; vm_compute; reflexivity.
  - intros c (a & b & E & L). destruct a; [|unfold Zlen in L; cbn [length] in L; lia]. vm_compute in E. discriminate E.
Qed.

(** A file that ends before the version: a null pointer is compared with a string. *)
Theorem C46_truncated_refuted : exists f, f = w_long 1 /\ hep_open (Some f) = UB UBNullDeref.
Proof. exists (w_long 1). split; [reflexivity|vm_compute; reflexivity]. Qed.
Print Assumptions C46_truncated_refuted.

(** Two empty tables that point to each other: readEvent does not return. *)
Definition loop_tables : bytes :=
  let hd := w_header ex_hd in
  hd ++ w_table (mkTab 0 (str "1.00") (Zlen hd) [] [] [] [] [] []).
Theorem C46_cycle_refuted : exists f, f = loop_tables /\ first_event f = UB UBDiverge.
Proof. exists loop_tables. split; [reflexivity|vm_compute; reflexivity]. Qed.
Print Assumptions C46_cycle_refuted.

(** A table that points to a record that is not an event record: the error is forgotten with the next
    array, and what follows is returned as an event. *)
Definition wrong_block : bytes :=
  let rec := ex_rec (Event ex_gen2) in
  let hd := w_header ex_hd in
  let tab p := w_table (mkTab 0 (str "1.00") (-2) [] [] [] [] [p] []) in
  hd ++ tab (Zlen (hd ++ tab 0)) ++ w_long 3 ++ skipn 4 (w_record rec).
Theorem C46_wrong_block_refuted : exists f, f = wrong_block /\ length (family (first_event f)) = 5%nat.
Proof. exists wrong_block. split; [reflexivity|vm_compute; reflexivity]. Qed.
Print Assumptions C46_wrong_block_refuted.

(** A table with a pointer -1: the event before is returned again, by every call. *)
Definition no_pointer : bytes :=
  let hd := w_header ex_hd in
  let tab p := w_table (mkTab 0 (str "1.00") (-2) [] [] [] [] [p; -1] []) in
  hd ++ tab (Zlen (hd ++ tab 0)) ++ w_record (ex_rec (Event ex_gen2)).
Definition after (k : nat) : option hep :=
  Nat.iter k (fun o => match o with Some h => snd (hep_event (fun n => n) (fun t => t) h) | None => None end) (match hep_open (Some no_pointer) with Ok h => Some h | _ => None end).
Theorem C46_no_pointer_refuted : exists f h r, f = no_pointer /\ hep_open (Some f) = Ok h /\ length (family r) = 5%nat /\ forall n, hep_events (fun n => n) (fun t => t) n h = repeat r n.
Proof.
  assert (H : match after 0, after 1, after 2 with
    | Some h0, Some h1, Some h2 => (exists r, (hep_open (Some no_pointer) = Ok h0 /\ hep_event (fun n => n) (fun t => t) h0 = (r, Some h1)) /\ (hep_event (fun n => n) (fun t => t) h1 = (r, Some h2)
        /\ hep_event (fun n => n) (fun t => t) h2 = (r, Some h2)) /\ length (family r) = 5%nat)
    | _, _, _ => False end).
  { vm_compute. eexists. split; [split; reflexivity|]. split; [split; reflexivity|reflexivity]. }
  destruct (after 0) as [h0|]; [|destruct H]. destruct (after 1) as [h1|]; [|destruct H]. destruct (after 2) as [h2|]; [|destruct H].
  destruct H as (r & (E0 & E1) & (E2 & E3) & HF). exists no_pointer, h0, r. split; [reflexivity|]. split; [exact E0|]. split; [exact HF|].
  assert (L : forall n, hep_events (fun n => n) (fun t => t) n h2 = repeat r n) by (induction n as [|n IH]; [reflexivity|]; cbn [hep_events repeat]; rewrite E3, IH; reflexivity).
  intros [|[|n]]; cbn [hep_events repeat]; [reflexivity|rewrite E1; reflexivity|]. rewrite E1, E2, L. reflexivity.
Qed.
Print Assumptions C46_no_pointer_refuted.
