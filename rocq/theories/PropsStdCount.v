(** * lcio_event_counter for LCIO and StdHep files (C59) *)

From Verif Require Import Bytes StrMap SioModel SioProofs SioSpec SioFrame Ieee ObjModel ObjSpec CollSpec CollProofs ListFacts
  EventModel EventSpec EventProofs EventExamples PostProofs EventFacts IndexModel IndexSpec IndexProofs IndexExamples FileModel FileFrame IndexFile FileSpec FileWrite FileSessions FileRead FileSeq FileDeliver FileFacts
  FileUse FileDirect FileMore FileCount FileExamples StreamSpec FileStream MergeModel FixModel HepModel HepSpec HepFormat HepFile HepExamples HepUpdModel HepUpdSpec PropsHepUpd StdCountModel.

(** ** The kinds of files *)

Lemma after_dot_app p s : ~ In x2e s -> after_dot (p ++ x2e :: s) = s.
Proof.
  intros H. assert (N : existsb (fun c => Zb c =? 46) s = false).
  { destruct (existsb _ s) eqn:E; [|reflexivity]. apply existsb_exists in E. destruct E as (b & Hb & Eb). destruct H. replace x2e with b; [exact Hb|].
    apply Z.eqb_eq in Eb. destruct b; (reflexivity || (vm_compute in Eb; discriminate)). }
  induction p as [|b p IH]; cbn [app after_dot].
  - rewrite N. reflexivity.
  - replace (existsb (fun c => Zb c =? 46) (p ++ x2e :: s)) with true; [exact IH|]. symmetry. rewrite existsb_app. cbn. apply Bool.orb_true_r.
Qed.
Lemma after_dot_none n : ~ In x2e n -> after_dot n = n.
Proof.
  intros H. assert (D : forall b, Zb b =? 46 = true -> b = x2e) by (intros b Eb; apply Z.eqb_eq in Eb; destruct b; (reflexivity || (vm_compute in Eb; discriminate))).
  destruct n as [|b l]; [reflexivity|]. cbn [after_dot]. destruct (existsb _ l) eqn:E.
  - apply existsb_exists in E. destruct E as (c & Hc & Ec). destruct H. right. rewrite <- (D c Ec). exact Hc.
  - destruct (Zb b =? 46) eqn:Eb; [|reflexivity]. destruct H. left. exact (D b Eb).
Qed.
Lemma after_dot_split n : after_dot n = n \/ exists p, n = p ++ x2e :: after_dot n.
Proof.
  assert (D : forall b, Zb b =? 46 = true -> b = x2e) by (intros b Eb; apply Z.eqb_eq in Eb; destruct b; (reflexivity || (vm_compute in Eb; discriminate))).
  induction n as [|b l IH]; [left; reflexivity|]. cbn [after_dot]. destruct (existsb (fun c => Zb c =? 46) l) eqn:E.
  - right. destruct IH as [IH|[p IH]].
    + exfalso. clear D. assert (K : forall l, existsb (fun c => Zb c =? 46) l = true -> (length (after_dot l) < length l)%nat).
      { clear. induction l as [|b l IH]; [discriminate|]. cbn [existsb after_dot length]. destruct (existsb _ l) eqn:E; [intros _; specialize (IH eq_refl); lia|].
        rewrite Bool.orb_false_r. intros ->. lia. }
      specialize (K l E). rewrite IH in K. lia.
    + exists (b :: p). cbn [app]. f_equal. exact IH.
  - destruct (Zb b =? 46) eqn:Eb; [|left; reflexivity]. right. exists []. cbn [app]. f_equal. exact (D b Eb).
Qed.

(** StdHep files are those with a name that ends with ".stdhep", and a file "stdhep". *)
Theorem C59_kind : forall n, is_stdhep n = true <-> n = str "stdhep" \/ exists p, n = p ++ str ".stdhep".
Proof.
  intros n. unfold is_stdhep. rewrite bytes_eqb_eq. split.
  - intros E. destruct (after_dot_split n) as [H|[p H]]; [left; congruence|]. right. exists p. rewrite E in H. exact H.
  - intros [->|[p ->]]; [reflexivity|]. apply (after_dot_app p (str "stdhep")). intros H. cbn in H. repeat (destruct H as [H|H]; [discriminate H|]). exact H.
Qed.
Print Assumptions C59_kind.
Example C59_kind_case : map is_stdhep [str "a.stdhep"; str "a.slcio.stdhep"; str "stdhep"; str "a.stdhep.slcio"; str "astdhep"; str "a.stdhep."] = [true; true; true; false; false; false].
Proof. reflexivity. Qed.

(** ** The number in the header *)

Lemma declared_lies f hd t more : stdhep_file f hd t more -> declared_events f = Ok (s32 (hd_events hd)).
Proof.
  intros (H & (K1 & K2 & K3 & K4 & K5 & K6 & K7 & K8 & K9) & _). rewrite <- (app_nil_r (w_table t)) in H. unfold w_header in H. rewrite <- !app_assoc in H. unfold declared_events.
  step_long H. step_long H. step_string H K1. step_string H K3. step_string H K4. step_string H K5.
  assert (EO : bytes_eqb (cstr (pad (hd_version hd))) (str "2.00") || bytes_eqb (cstr (pad (hd_version hd))) (str "1.00") = old_version (hd_version hd)).
  { unfold pad. rewrite cstr_pad by exact K2. reflexivity. }
  rewrite EO. destruct (old_version (hd_version hd)).
  - unfold copy_date. pose proof (Zlen_pos (hd_date hd)). replace (Zlen (hd_date hd) + 1 <? 0) with false by lia.
    replace (Zlen (hd_date hd) <? Zlen (cstr (pad (hd_date hd)))) with false by (unfold pad; pose proof (cstr_short (hd_date hd) (Z.to_nat ((- Zlen (hd_date hd)) mod 4))); lia). cbn [bind app] in *.
    step_long H. step_long H. reflexivity.
  - step_string H K6. cbn [bind]. step_long H. step_long H. reflexivity.
Qed.

(** ** The sum *)

(** the file named [n] counts [k] events: the events that were written, or one less than the number in the
    header *)
Inductive counts_as (comp : Z -> bytes -> bytes) (uncomp : bytes -> option bytes) (d : disk) : bytes -> Z -> Prop :=
| CA_lcio : forall f, wf_ok comp uncomp d f -> Forall (sess_covers comp) (wf_sess f) -> numbered (items_of (wf_sess f)) ->
    counts_as comp uncomp d (wf_name f) (Zlen (item_events (items_of (wf_sess f))))
| CA_stdhep : forall n f hd t more, (n = str "stdhep" \/ exists p, n = p ++ str ".stdhep") -> d n = Some f -> stdhep_file f hd t more ->
    counts_as comp uncomp d n (s32 (hd_events hd) - 1).

(** For any list of files of both kinds the sum is printed. *)
Theorem C59_both_kinds : forall comp uncomp d names ks raw cbuf mraw next, codec_ok comp uncomp -> Forall2 (counts_as comp uncomp d) names ks ->
  count_both uncomp d (new_reader false false [] raw cbuf mraw next) 0 names = Ok (fold_right Z.add 0 ks).
Proof.
  intros comp uncomp d names ks raw cbuf mraw next HC F.
  enough (G : forall total, count_both uncomp d (new_reader false false [] raw cbuf mraw next) total names = Ok (total + fold_right Z.add 0 ks)) by (rewrite G; reflexivity).
  induction F as [|n k names ks H F IH]; intros total; [cbn; f_equal; lia|]. cbn [count_both fold_right].
  destruct H as [f Hw Hcov Hnum|n f hd t more Hn Hd Hf].
  - destruct (Hw) as [_ Hm]. assert (Hname : is_stdhep (wf_name f) = false).
    { destruct Hm as (d0 & d1 & m & -> & _). apply Bool.not_true_is_false. intros E. apply C59_kind in E.
      assert (S : exists q, sio_filename m = q ++ str ".slcio").
      { unfold sio_filename. destruct (bytes_eqb _ extension) eqn:Eb; [|exists m; reflexivity]. apply bytes_eqb_eq in Eb. exists (firstn (length m - length extension) m).
        change (str ".slcio") with extension. transitivity (firstn (length m - length extension) m ++ skipn (length m - length extension) m); [symmetry; apply firstn_skipn|]. rewrite Eb. reflexivity. }
      destruct S as [q S]. rewrite S in E. destruct E as [E|[p E]]; apply (f_equal (@rev byte)) in E; rewrite ?rev_app_distr in E; cbn in E; discriminate E. }
    rewrite Hname. destruct (counts comp uncomp d f false [] raw cbuf mraw next HC Hw Hcov Hnum) as (r & r1 & E1 & E2 & _).
    rewrite E1, E2. cbn [fst bind]. rewrite IH. f_equal. lia.
  - rewrite (proj2 (C59_kind n) Hn). rewrite Hd. destruct (read_header_lies f hd t more Hf) as (q & ->). cbn [bind]. rewrite (declared_lies f hd t more Hf). cbn [bind]. rewrite IH. f_equal. lia.
Qed.
Print Assumptions C59_both_kinds.

Definition both_disk : disk := save (save ex_disk (str "a.stdhep") ex_hep) (str "z.stdhep") (one_event ex_gen1).
Example C59_both_case : count_both ex_uncomp both_disk (ex_read false) 0 [ex_name; str "a.stdhep"; ex_name] = Ok (3 + 2 + 3) /\
  count_both ex_uncomp both_disk (ex_read false) 0 [str "a.stdhep"; str "b.stdhep"] = Throw LIOException.
Proof. split; vm_compute; reflexivity. Qed.
Example C59_both_hypotheses : Forall2 (counts_as ex_comp ex_uncomp ex_disk) [ex_name; ex_name] [3; 3] /\ stdhep_file ex_hep ex_hd ex_t1 [ex_t2; ex_t3] /\ s32 (hd_events ex_hd) - 1 = 2.
Proof.
  split; [|split; [exact ex_stdhep|reflexivity]].
  assert (C : counts_as ex_comp ex_uncomp ex_disk ex_name 3).
  { change 3 with (Zlen (item_events (items_of (wf_sess ex_file)))). apply (CA_lcio ex_comp ex_uncomp ex_disk ex_file); [exact (proj1 ex_wf)|exact (proj1 ex_covers)|exact ex_numbered]. }
  repeat (constructor; [exact C|]). constructor.
Qed.

(** The number of events in a StdHep file is not counted: of two files with the same header the one with two
    events and the one with one event count as two. *)
Theorem C59_stdhep_refuted : exists f1 f2 hd t1 more1 t2, stdhep_file f1 hd t1 more1 /\ stdhep_file f2 hd t2 [] /\
  Zlen (events_of 0 0 (et_recs t1 ++ flat_map et_recs more1)) = 2 /\ Zlen (events_of 0 0 (et_recs t2 ++ [])) = 1 /\
  count_both ex_uncomp (save empty_disk (str "a.stdhep") f1) (ex_read false) 0 [str "a.stdhep"] = Ok 2 /\
  count_both ex_uncomp (save empty_disk (str "a.stdhep") f2) (ex_read false) 0 [str "a.stdhep"] = Ok 2.
Proof.
  exists ex_hep, (one_event ex_gen1), ex_hd, ex_t1, [ex_t2; ex_t3], z_table. split; [exact ex_stdhep|]. split; [exact C55_same_file|].
  repeat (split; [vm_compute; reflexivity|]). vm_compute. reflexivity.
Qed.
Print Assumptions C59_stdhep_refuted.
