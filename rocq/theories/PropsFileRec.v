(** * What the random access records of a file say (C87) *)

From Coq Require Import Sorted.
From Verif Require Import Bytes StrMap SioModel SioSpec Ieee ObjModel ObjSpec EventModel EventSpec EventExamples IndexModel IndexSpec IndexProofs
  FileModel FileSpec IndexFile IndexFacts FileSessions FileExamples LayoutFile.

(** run headers come before events; the former are in the order of the runs, the latter in that of runs and numbers *)
Definition earlier (a b : runevt) : Prop :=
  (snd a < 0 /\ 0 <= snd b) \/ (snd a < 0 /\ snd b < 0 /\ fst a < fst b) \/
  (0 <= snd a /\ 0 <= snd b /\ (fst a < fst b \/ (fst a = fst b /\ snd a < snd b))).
(** [k] stands for one of the entries, and no entry is earlier / later *)
Definition first_of (l : list (runevt * Z)) (k : runevt) : Prop := (exists e, In e l /\ same_key (fst e) k) /\ forall e, In e l -> ~ earlier (fst e) k.
Definition last_of (l : list (runevt * Z)) (k : runevt) : Prop := (exists e, In e l /\ same_key (fst e) k) /\ forall e, In e l -> ~ earlier k (fst e).

(** numbers of different runs with a header and of different events *)
Definition counted (l : list (runevt * Z)) (nrun nevt : Z) : Prop :=
  exists rs es, NoDup rs /\ NoDup es /\ (forall r, In r rs <-> exists e, In e l /\ fst (fst e) = r /\ snd (fst e) < 0) /\
    (forall x, In x es <-> exists e, In e l /\ fst e = x /\ 0 <= snd x) /\ nrun = Zlen rs /\ nevt = Zlen es.

Lemma counts l : Forall entry_ok l -> counted l (rm_nrun (index_of l)) (rm_nevt (index_of l)).
Proof.
  intros F. destruct (listing l F) as (rs & es & _ & _ & S1 & S2 & R & E & N1 & N2). exists rs, es. split; [|split; [|repeat split; try assumption; first [apply R|apply E]]].
  - clear - S1. induction S1 as [|x l _ IH H]; constructor; [|exact IH]. intros Hx. rewrite Forall_forall in H. specialize (H x Hx). lia.
  - clear - S2. induction S2 as [|x l _ IH H]; constructor; [|exact IH]. intros Hx. rewrite Forall_forall in H. specialize (H x Hx). unfold evt_lt in H. lia.
Qed.
Lemma same_earlier a b c : same_key a b -> (earlier a c <-> earlier b c) /\ (earlier c a <-> earlier c b).
Proof. intros [->|H]; [tauto|]. unfold earlier. lia. Qed.
Lemma same_sym a b : same_key a b -> same_key b a.
Proof. unfold same_key. intros [->|(A & B & C)]; [left; reflexivity|right; auto]. Qed.
Lemma last_in {A} (l : list A) d : l <> [] -> In (last l d) l.
Proof. intros H. destruct (exists_last H) as (l' & x & ->). rewrite last_last. apply in_or_app. right. left. reflexivity. Qed.
Lemma bounds l : Forall entry_ok l -> l <> [] -> first_of l (rm_min (index_of l)) /\ last_of l (rm_max (index_of l)).
Proof.
  intros F Hl. pose proof (index_not_empty l F Hl) as Hn. pose proof (index_of_mem l) as M. pose proof (ro_sorted _ (index_of_ok l F)) as Hs.
  assert (U : forall e, In e l -> exists e', In e' (rm_map (index_of l)) /\ same_key (fst e') (fst e)) by (intros e He; apply (M (fst e) F); exists e; split; [exact He|left; reflexivity]).
  assert (D : forall e', In e' (rm_map (index_of l)) -> exists e, In e l /\ same_key (fst e) (fst e')) by (intros e' He; apply (M (fst e') F); exists e'; split; [exact He|left; reflexivity]).
  set (m := rm_map (index_of l)) in *. split; split.
  - unfold rm_min. fold m. destruct m as [|x m']; [contradiction|]. apply D. left. reflexivity.
  - intros e He Hlt. destruct (U e He) as (e' & Hi & Hk). apply (proj1 (same_earlier _ _ _ Hk)) in Hlt. unfold rm_min in Hlt. fold m in Hlt.
    destruct m as [|x m']; [contradiction|]. inversion Hs as [|? ? _ Hf]; subst. apply re_lt_spec in Hlt. destruct Hi as [<-|Hi]; [rewrite re_lt_irrefl in Hlt; discriminate Hlt|].
    rewrite Forall_forall in Hf. specialize (Hf e' Hi). pose proof (re_lt_trans _ _ _ Hf Hlt) as X. rewrite re_lt_irrefl in X. discriminate X.
  - unfold rm_max. fold m. apply D. apply last_in. exact Hn.
  - intros e He Hlt. destruct (U e He) as (e' & Hi & Hk). apply (proj2 (same_earlier _ _ _ Hk)) in Hlt. unfold rm_max in Hlt. fold m in Hlt.
    destruct (exists_last Hn) as (m' & x & Em). rewrite Em in *. rewrite last_last in Hlt. apply re_lt_spec in Hlt.
    apply in_app_or in Hi. destruct Hi as [Hi|[<-|[]]]; [|rewrite re_lt_irrefl in Hlt; discriminate Hlt].
    assert (X : re_lt (fst e') (fst x) = true).
    { clear - Hs Hi. induction m' as [|y m' IH]; [destruct Hi|]. cbn [app] in Hs. inversion Hs as [|? ? Hs' Hf]; subst. destruct Hi as [<-|Hi]; [|exact (IH Hs' Hi)].
      rewrite Forall_forall in Hf. apply Hf. apply in_or_app. right. left. reflexivity. }
    pose proof (re_lt_trans _ _ _ X Hlt) as Y. rewrite re_lt_irrefl in Y. discriminate Y.
Qed.
Lemma written g o g' o' : rm_map (mg_map g) <> [] -> write_access g o = Ok (g', o') ->
  exists a f, mg_list g' = mg_list g ++ [a] /\ mg_file g' = Some f /\ ra_min a = rm_min (mg_map g) /\ ra_max a = rm_max (mg_map g) /\ ra_nrun a = rm_nrun (mg_map g) /\ ra_nevt a = rm_nevt (mg_map g) /\
    let f0 := fold_left merge_racc (mg_list g ++ [a]) (match mg_file g with Some f => f | None => new_file_record end) in
    ra_min f = ra_min f0 /\ ra_max f = ra_max f0 /\ ra_nrun f = ra_nrun f0 /\ ra_nevt f = ra_nevt f0.
Proof.
  intros Hn H. unfold write_access in H. destruct (rm_map (mg_map g)) as [|x m] eqn:E; [contradiction|].
  destruct (rethrow EIoFailure (write_index (mg_map g))) as [ix|e|k]; cbn [bind] in H; [|discriminate H..].
  destruct (put_record o (mg_raw g) index_record [mkWB index_record cur_vers ix]) as [[[o1 raw1] start]|e|k]; cbn [bind] in H; [|discriminate H..]. cbv zeta in H.
  match type of H with context [mg_list g ++ [?a0]] => set (a := a0) in * end.
  destruct (put_record o1 raw1 access_record [mkWB access_record cur_vers (write_racc a)]) as [[[o2 raw2] p2]|e|k]; cbn [bind] in H; [|discriminate H..].
  match type of H with context [write_racc ?f1] => set (f := f1) in * end.
  destruct (put_record o2 raw2 access_record [mkWB access_record cur_vers (write_racc f)]) as [[[o3 raw3] p3]|e|k]; cbn [bind] in H; [|discriminate H..].
  injection H as <- _. exists a, f. cbn [mg_list mg_file]. repeat (split; [reflexivity|]). split; reflexivity.
Qed.

(** The record of a session has the first and the last entry and the numbers of run headers and events of its index;
    for the first session the record of the file has the same, if the last entry has no negative run number. *)
Theorem C87_first_session : forall l raw o g' o', Forall entry_ok l -> l <> [] -> write_access (mkMgr (index_of l) [] None raw) o = Ok (g', o') ->
  exists a f, mg_list g' = [a] /\ mg_file g' = Some f /\ first_of l (ra_min a) /\ last_of l (ra_max a) /\ counted l (ra_nrun a) (ra_nevt a) /\
    ra_min f = ra_min a /\ (0 <= fst (ra_max a) -> ra_max f = ra_max a) /\ ra_nrun f = ra_nrun a /\ ra_nevt f = ra_nevt a.
Proof.
  intros l raw o g' o' F Hl H. destruct (written (mkMgr (index_of l) [] None raw) o g' o' (index_not_empty l F Hl) H) as (a & f & L & Hf & A1 & A2 & A3 & A4 & B1 & B2 & B3 & B4). cbn [mg_list mg_file mg_map app] in *.
  destruct (bounds l F Hl) as [Bf Bl]. rewrite <- A1 in Bf. rewrite <- A2 in Bl. exists a, f. split; [exact L|]. split; [exact Hf|]. split; [exact Bf|]. split; [exact Bl|]. split; [rewrite A3, A4; exact (counts l F)|].
  assert (KM : key_ok (ra_max a) /\ key_ok (ra_min a)).
  { rewrite A1, A2. pose proof (ro_keys _ (index_of_ok l F)) as RK. pose proof (index_not_empty l F Hl) as Hn. split.
    - rewrite Forall_forall in RK. exact (proj1 (RK _ (last_in (rm_map (index_of l)) ((-1, -1), 0) Hn))).
    - unfold rm_min. destruct (rm_map (index_of l)); [contradiction|]. inversion RK as [|? ? R0 _]; subst. exact (proj1 R0). }
  destruct KM as [[M1 M2] [M3 M4]]. unfold int32 in M1, M2, M3, M4.
  cbn [fold_left merge_racc ra_min ra_max ra_nrun ra_nevt] in B1, B2, B3, B4. unfold new_file_record in B1, B2, B3, B4. cbn [ra_min ra_max ra_nrun ra_nevt] in B1, B2, B3, B4.
  split; [|split; [|split]].
  - rewrite B1. destruct (re_lt (ra_min a) (two31 - 1, two31 - 1)) eqn:E; [reflexivity|]. apply not_true_iff_false in E. rewrite re_lt_spec in E. change (two31 - 1) with 2147483647 in *. cbn [fst snd] in E.
    clear - E M3 M4. destruct (ra_min a) as [x y]. cbn [fst snd] in *. f_equal; lia.
  - intros H0. rewrite B2. change (re_of64 0) with (0, 0). change (re_to64 (0, 0)) with 0. destruct (Z.ltb_spec 0 (re_to64 (ra_max a))) as [|Hle]; [reflexivity|].
    clear - H0 Hle M1 M2. unfold re_to64 in Hle. change two32 with 4294967296 in Hle.
    destruct (ra_max a) as [x y]. cbn [fst snd] in *. pose proof (Z.mod_pos_bound y 4294967296 ltac:(lia)). assert (x = 0) by lia. assert (Hy : y mod 4294967296 = 0) by lia. subst x. f_equal.
    apply Z.mod_divide in Hy; [|lia]. destruct Hy as [q ->]. lia.
  - rewrite B3. lia.
  - rewrite B4. lia.
Qed.
Print Assumptions C87_first_session.

(** If all run numbers are negative, the last entry in the record of the file is event 0 of run 0, which was not written. *)
Theorem C87_negative_refuted : exists l g' o', Forall entry_ok l /\ write_access (mkMgr (index_of l) [] None ex_buf) (mkO [] 0) = Ok (g', o') /\
  last_of l (-5, 3) /\ option_map ra_max (mg_file g') = Some (0, 0) /\ ~ last_of l (0, 0).
Proof.
  exists [((-5, -1), 0); ((-5, 3), 400); ((-7, 8), 800)]. eexists. eexists. split; [repeat constructor; cbn; lia|]. split; [vm_compute; reflexivity|]. split; [|split; [reflexivity|]].
  - split; [exists ((-5, 3), 400); split; [right; left; reflexivity|left; reflexivity]|]. intros e He. unfold earlier. cbn [In] in He. destruct He as [<-|[<-|[<-|[]]]]; cbn [fst snd]; lia.
  - intros [(e & He & Hk) _]. cbn [In] in He. unfold same_key in Hk. destruct He as [<-|[<-|[<-|[]]]]; cbn [fst snd] in Hk; destruct Hk as [Hk|Hk]; try discriminate Hk; lia.
Qed.
Print Assumptions C87_negative_refuted.

(** In a session that appends, the manager has the record of the last session in its list and that of the file; what the
    former counts is added to the latter again. *)
Theorem C87_append : forall l a0 f0 raw o g' o', Forall entry_ok l -> l <> [] -> write_access (mkMgr (index_of l) [a0] (Some f0) raw) o = Ok (g', o') ->
  exists a f, mg_list g' = [a0; a] /\ mg_file g' = Some f /\ first_of l (ra_min a) /\ last_of l (ra_max a) /\ counted l (ra_nrun a) (ra_nevt a) /\
    ra_nrun f = ra_nrun f0 + ra_nrun a0 + ra_nrun a /\ ra_nevt f = ra_nevt f0 + ra_nevt a0 + ra_nevt a.
Proof.
  intros l a0 f0 raw o g' o' F Hl H. destruct (written (mkMgr (index_of l) [a0] (Some f0) raw) o g' o' (index_not_empty l F Hl) H) as (a & f & L & Hf & A1 & A2 & A3 & A4 & _ & _ & B3 & B4). cbn [mg_list mg_file mg_map app] in *.
  destruct (bounds l F Hl) as [Bf Bl]. exists a, f. rewrite A1, A2. split; [exact L|]. split; [exact Hf|]. split; [exact Bf|]. split; [exact Bl|]. split; [rewrite A3, A4; exact (counts l F)|]. split; [rewrite B3|rewrite B4]; reflexivity.
Qed.
Print Assumptions C87_append.
(** the record at the end of a file *)
Definition file_end (d : disk) (n : bytes) : option (Z * Z) :=
  match d n with
  | Some data => match at_position (- access_size) read_access (open_ifs data) (new_mgr ex_buf) with
                 | (Ok true, _, g) => option_map (fun f => (ra_nrun f, ra_nevt f)) (mg_last g)
                 | _ => None
                 end
  | None => None
  end.
(** The file of two sessions has 2 run headers and 3 events; the record at its end has 3 and 5.  For one session it is right. *)
Theorem C87_append_refuted : exists d s1 s2, sessions ex_comp ex_uncomp empty_disk (str "x") s1 [s2] = Ok d /\
  Zlen (filter (fun i => match i with WRun _ => true | WEvt _ _ _ => false end) (items_of [s1; s2])) = 2 /\
  Zlen (filter (fun i => match i with WRun _ => false | WEvt _ _ _ => true end) (items_of [s1; s2])) = 3 /\ file_end d ex_name = Some (3, 5) /\ file_end ex_disk2 ex_name = Some (2, 3).
Proof.
  exists ex_disk, ex_sess1, ex_sess2. split; [apply disk_of_ok; vm_compute; reflexivity|]. repeat split; vm_compute; reflexivity.
Qed.
Print Assumptions C87_append_refuted.
Example C87_case : exists g' o', Forall entry_ok [((3, -1), 0); ((3, 7), 400); ((3, 2), 1000000)] /\
  write_access (mkMgr (index_of [((3, -1), 0); ((3, 7), 400); ((3, 2), 1000000)]) [] None ex_buf) (mkO [] 0) = Ok (g', o') /\
  option_map (fun f => (ra_min f, ra_max f, ra_nrun f, ra_nevt f)) (mg_file g') = Some ((3, -1), (3, 7), 1, 2).
Proof. eexists. eexists. split; [repeat constructor; cbn; lia|]. split; vm_compute; reflexivity. Qed.
Example C87_append_case : exists g' o', let a0 := mkRA (3, -1) (3, 7) 1 2 1 500 0 0 700 in
  write_access (mkMgr (index_of [((4, -1), 0); ((4, 1), 400)]) [a0] (Some (mkRA (3, -1) (3, 7) 1 2 1 0 700 700 0)) ex_buf) (mkO [] 0) = Ok (g', o') /\
  option_map (fun f => (ra_nrun f, ra_nevt f)) (mg_file g') = Some (3, 5).
Proof. eexists. eexists. cbv zeta. split; vm_compute; reflexivity. Qed.
