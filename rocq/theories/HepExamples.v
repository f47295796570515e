(** * A StdHep file *)

From Verif Require Import Bytes SioModel Ieee ObjModel HepModel HepSpec HepFormat.

(** 1.0 and 2.5 as words *)
Definition one : Z := 0x3FF0000000000000.
Definition two_half : Z := 0x4004000000000000.

Definition ex_hd : hheader := mkHd 0 (str "2.01") (str "title") (str "") (str "2001-01-01") (str "today") 10 3 0 2 1 [101] [str "STDHEP"].
(** an electron; a Z boson from it that decays to two muons *)
Definition ex_gen1 : generated :=
  mkGen 1 4 [3; 2; 1; 1] [11; 23; 13; -13] [0; 0; 1; 0; 2; 0; 2; 0] [2; 0; 3; 4; 0; 0; 0; 0] (repeat one 20) (repeat two_half 16)
    (Some (mkG4 two_half 0 0 [one] (repeat one 12) [501; 502; 0; 0; 503; 504; 1; 2] 91)).
(** two decayed quarks without daughters, a shower (code 94) and what comes out of it *)
Definition ex_gen2 : generated :=
  mkGen 2 5 [2; 2; 2; 1; 1] [1; -1; 94; 1; -1] [0; 0; 0; 0; 1; 2; 3; 0; 3; 0] [0; 0; 0; 0; 4; 5; 0; 0; 0; 0] (repeat one 25) (repeat two_half 20) None.
Definition ex_rec (c : content) : record := mkRec 0 (str "2.00") 1 2 3 4 0 [77] [] 101 0 (str "1.05") c.
Definition ex_recs : list record := [ex_rec (RunInfo true (repeat x01 36)); ex_rec (Event ex_gen1)].
Definition ex_tab1 (next p1 p2 : Z) : etable := mkTab 0 (str "1.00") next [1; 2] [0; 0] [3; 3] [0; 0] [p1; p2] ex_recs.
Definition ex_tab2 (next : Z) : etable := mkTab 0 (str "1.00") next [] [] [] [] [] [].
Definition ex_tab3 (p1 : Z) : etable := mkTab 0 (str "1.00") (-2) [3] [0] [3] [0] [p1] [ex_rec (Event ex_gen2)].
(** the file: header, first table, the two records, an empty table, a table, a record *)
Definition ex_layout (tab1 tab2 tab3 : etable) : list bytes :=
  [w_header ex_hd; w_table tab1; w_record (ex_rec (RunInfo true (repeat x01 36))); w_record (ex_rec (Event ex_gen1)); w_table tab2; w_table tab3; w_record (ex_rec (Event ex_gen2))].
Definition place (k : nat) : Z := Zlen (concat (firstn k (ex_layout (ex_tab1 0 0 0) (ex_tab2 0) (ex_tab3 0)))).
Definition ex_t1 : etable := ex_tab1 (place 4) (place 2) (place 3).
Definition ex_t2 : etable := ex_tab2 (place 5).
Definition ex_t3 : etable := ex_tab3 (place 6).
Definition ex_hep : bytes := concat (ex_layout ex_t1 ex_t2 ex_t3).

Lemma lies_concat l k b : nth_error l k = Some b -> lies (concat l) (Zlen (concat (firstn k l))) b.
Proof.
  intros H. exists (concat (firstn k l)), (concat (skipn (S k) l)). split; [|reflexivity]. rewrite <- (firstn_skipn k l) at 1. rewrite concat_app. f_equal.
  revert k H. induction l as [|x l IH]; intros [|k] H; cbn in *; try discriminate; [congruence|apply IH; exact H].
Qed.
Lemma lies_at l k b p : nth_error l k = Some b -> Zlen (concat (firstn k l)) = p -> lies (concat l) p b.
Proof. intros H <-. apply lies_concat. exact H. Qed.
Ltac small := repeat match goal with
  | |- _ /\ _ => split
  | |- Forall _ _ => constructor
  | |- _ <= _ => vm_compute; discriminate
  | |- _ < _ => vm_compute; reflexivity
  | |- True => exact Logic.I
  end.
Lemma ex_long l : forallb (fun v => (- two31 <=? v) && (v <? two31)) l = true -> Zlen l <? two31 = true -> long_list l.
Proof. intros H K. split; [lia|]. apply Forall_forall. intros v Hv. rewrite forallb_forall in H. specialize (H v Hv). unfold is_i32. lia. Qed.
Lemma ex_double l : forallb (fun v => (0 <=? v) && (v <? two64)) l = true -> Zlen l <? two31 = true -> double_list l.
Proof. intros H K. split; [lia|]. apply Forall_forall. intros v Hv. rewrite forallb_forall in H. specialize (H v Hv). unfold is_u64. lia. Qed.
Lemma ex_short s : Zlen s <? two31 - 4 = true -> short_string s.
Proof. intros H. unfold short_string. lia. Qed.
Ltac lists := repeat match goal with
  | |- long_list _ => apply ex_long; vm_compute; reflexivity
  | |- double_list _ => apply ex_double; vm_compute; reflexivity
  | |- short_string _ => apply ex_short; vm_compute; reflexivity
  | |- is_i32 _ => vm_compute; split; congruence
  | |- is_u64 _ => vm_compute; split; congruence
  | |- True => exact Logic.I
  | |- _ /\ _ => split
  end.
Lemma ex_records_ok : record_ok (ex_rec (RunInfo true (repeat x01 36))) /\ record_ok (ex_rec (Event ex_gen1)) /\ record_ok (ex_rec (Event ex_gen2)).
Proof. unfold record_ok, ex_rec, gen_ok, ex_gen1, ex_gen2, gen4_ok. cbn [r_content r_version r_bversion r_ptrs r_more g_4 g_num g_n g_ist g_id g_mo g_da g_p g_v g_wgt g_scale g_spin g_color g_idrup]. lists. reflexivity. Qed.
Lemma ex_tables_ok : table_ok ex_t1 /\ table_ok ex_t2 /\ table_ok ex_t3.
Proof. unfold table_ok. lists. Qed.
Lemma ex_stdhep : stdhep_file ex_hep ex_hd ex_t1 [ex_t2; ex_t3].
Proof.
  destruct ex_records_ok as (R1 & R2 & R3). destruct ex_tables_ok as (T1 & T2 & T3).
  assert (P : forall k b p, nth_error (ex_layout ex_t1 ex_t2 ex_t3) k = Some b -> Zlen (concat (firstn k (ex_layout ex_t1 ex_t2 ex_t3))) = p -> lies ex_hep p b) by (intros k b p; apply lies_at).
  split; [|split; [|split]].
  - exists [], (concat (skipn 2 (ex_layout ex_t1 ex_t2 ex_t3))). split; [|reflexivity]. unfold ex_hep. cbn [concat ex_layout skipn app]. rewrite <- app_assoc. reflexivity.
  - unfold header_ok. cbn [hd_version hd_title hd_comment hd_date hd_closing hd_ids hd_names ex_hd]. lists; [|repeat constructor; lists|reflexivity].
    intros H. repeat (destruct H as [H|H]; [discriminate H|]). exact H.
  - split; [exact T1|]. split; [constructor; [split; [apply (P 2%nat); [reflexivity|vm_compute; reflexivity]|exact R1]|constructor; [split; [apply (P 3%nat); [reflexivity|vm_compute; reflexivity]|exact R2]|constructor]]|].
    split; [vm_compute; discriminate|]. split; [apply (P 4%nat); [reflexivity|vm_compute; reflexivity]|]. split; [exact T2|]. split; [constructor|].
    split; [vm_compute; discriminate|]. split; [apply (P 5%nat); [reflexivity|vm_compute; reflexivity]|]. split; [exact T3|]. split; [|reflexivity].
    constructor; [split; [apply (P 6%nat); [reflexivity|vm_compute; reflexivity]|exact R3]|constructor].
  - apply Nat.leb_le. vm_compute. reflexivity.
Qed.

(** a file with a single event *)
Definition one_event (g : generated) : bytes :=
  let layout t := [w_header ex_hd; w_table t; w_record (ex_rec (Event g))] in
  let tab p := mkTab 0 (str "1.00") (-2) [] [] [] [] [p] [ex_rec (Event g)] in
  concat (layout (tab (Zlen (concat (firstn 2 (layout (tab 0))))))).
(** the result of the first call of readEvent *)
Definition first_event (f : bytes) : Res (option mccoll) := do h <- hep_open (Some f); fst (hep_event (fun n => n) (fun t => t) h).
Definition family (r : Res (option mccoll)) : list (list Z * list Z) :=
  match r with Ok (Some c) => map (fun o => (mc_parents o, mc_daughters o)) (cc_parts c) | _ => [] end.
