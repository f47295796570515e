(** * readStream: the calls of the listeners *)

From Verif Require Import Bytes StrMap SioModel SioProofs SioRecord SioRead SioFrame SioSpec Ieee ObjModel ObjSpec ObjProofs ObjCalls CollSpec
  CollProofs ListFacts EventModel EventSpec EventProofs PostProofs EventFacts IndexModel IndexSpec IndexProofs FileModel FileFrame IndexFile IndexFacts
  FileSpec FileWrite FileSessions FileRead FileSeq FileDeliver FileFacts StreamSpec.

(** ** Post processing an event a second time *)

Lemma restore_elems_idle nd np h l : (forall a, In a l -> mc_in h a) -> (np = 0 /\ nd = 0) \/ (0 < np /\ 0 < nd) -> restore_elems nd np h l = Ok h.
Proof.
  intros Ha Hc. induction l as [|a l IH]; [reflexivity|]. cbn [restore_elems].
  destruct (Ha a (or_introl eq_refl)) as (H0 & m & Hm). rewrite (mcp_at_in h a m H0 Hm). cbn [bind].
  replace ((np =? 0) && (0 <? nd)) with false by (destruct Hc as [[-> ->]|[H1 H2]]; [reflexivity|]; replace (np =? 0) with false by lia; reflexivity).
  replace ((0 <? np) && (nd =? 0)) with false by (destruct Hc as [[-> ->]|[H1 H2]]; [reflexivity|]; replace (nd =? 0) with false by lia; symmetry; apply andb_false_r).
  cbn [bind]. apply IH. intros b Hb. apply Ha. right. exact Hb.
Qed.
Lemma count_links_all h l : (forall a, In a l -> mc_in h a) ->
  count_links h l = Ok (Zlen (flat_map (daughters h) l), Zlen (flat_map (parents h) l)).
Proof.
  intros Ha. induction l as [|a l IH]; [reflexivity|]. cbn [count_links flat_map].
  destruct (Ha a (or_introl eq_refl)) as (H0 & m & Hm). rewrite (mcp_at_in h a m H0 Hm). cbn [bind].
  rewrite IH by (intros b Hb; apply Ha; right; exact Hb). cbn [bind]. rewrite !Zlen_app.
  unfold parents at 2, daughters at 2. rewrite Hm. reflexivity.
Qed.
Lemma restore_idle h cols :
  (forall nc a, In nc cols -> is_mc (snd nc) = true -> In a (c_elems (snd nc)) -> mc_in h a) ->
  (forall nc, In nc cols -> is_mc (snd nc) = true ->
     (flat_map (parents h) (c_elems (snd nc)) = [] <-> flat_map (daughters h) (c_elems (snd nc)) = [])) ->
  restore h cols = Ok h.
Proof.
  induction cols as [|[n c] cols IH]; intros HA HB; [reflexivity|]. cbn [restore].
  change (bytes_eqb (c_type c) (str "MCParticle") && negb (bit_set (c_flag c) BITSubset)) with (is_mc c).
  assert (HI : restore h cols = Ok h) by (apply IH; [intros nc a H; apply HA; right; exact H|intros nc H; apply HB; right; exact H]).
  destruct (is_mc c) eqn:Em; [|exact HI].
  pose proof (fun a => HA (n, c) a (or_introl eq_refl) Em) as HA1. pose proof (HB (n, c) (or_introl eq_refl) Em) as HB1. cbn [snd] in HA1, HB1.
  rewrite (count_links_all h (c_elems c) HA1). cbn [bind].
  rewrite restore_elems_idle; [exact HI|exact HA1|].
  destruct (flat_map (parents h) (c_elems c)) as [|p ps].
  - left. rewrite (proj1 HB1 eq_refl). split; reflexivity.
  - right. rewrite !Zlen_cons. pose proof (Zlen_nonneg ps). split; [lia|].
    destruct (flat_map (daughters h) (c_elems c)) as [|q qs]; [discriminate (proj2 HB1 eq_refl)|]. rewrite Zlen_cons. pose proof (Zlen_nonneg qs). lia.
Qed.

Section Again.
Context (srt : forall A : Type, (A -> Z) -> list A -> list A).

Lemma flat_map_eq_nil {A B} (f : A -> list B) l : flat_map f l = [] -> forall a, In a l -> f a = [].
Proof.
  intros H a Ha. destruct (f a) as [|y ys] eqn:E; [reflexivity|exfalso]. assert (In y []) as []. rewrite <- H. apply in_flat_map. exists a.
  split; [exact Ha|]. rewrite E. left. reflexivity.
Qed.

(** nothing is left to do when the parents of the particles of a collection are in that collection *)
Lemma restore_again names next h e only l : event_ok only h e -> 0 < next -> mc_own h (read_back only names e) ->
  event_copy srt names next h e only l -> restore (le_heap l) (ev_cols (le_evt l)) = Ok (le_heap l).
Proof.
  intros He Hnext Hown (_ & _ & new & Hnum & F & Hheap). cbv zeta in F, Hheap. set (tgt := target new (event_tags only names h e)) in *.
  pose proof He as (_ & _ & _ & _ & _ & _ & _ & H8 & H9). rewrite Forall_forall in H8.
  assert (Hok : forall nc, In nc (read_back only names e) -> exists ty, get_handler (c_type (snd nc)) = Some ty /\ coll_ok ty h (snd nc)).
  { intros nc Hnc. apply filter_In in Hnc. destruct (H8 nc (proj1 Hnc)) as (_ & _ & H). exact H. }
  assert (Hnd : NoDup (event_objs only names h e)) by (apply NoDup_flat_map_filter; exact H9).
  assert (Hin : forall nc a, In nc (read_back only names e) -> is_mc (snd nc) = true -> In a (c_elems (snd nc)) ->
     In a (coll_objs h (snd nc))).
  { intros nc a Hnc Hm Ha. destruct (Hok nc Hnc) as (ty & Hty & _). destruct (is_mc_handler _ _ Hm Hty) as [_ Hs].
    unfold coll_objs. rewrite Hs. apply in_flat_map. exists a. split; [exact Ha|left; reflexivity]. }
  assert (Hel : forall nc a, In nc (read_back only names e) -> is_mc (snd nc) = true -> In a (c_elems (snd nc)) ->
     0 < new a /\ mc_in (le_heap l) (new a) /\ parents (le_heap l) (new a) = map tgt (parents h a) /\
     daughters (le_heap l) (new a) = map new (daughters_of h (read_back only names e) a)).
  { intros nc a Hnc Hm Ha. destruct (Hok nc Hnc) as (ty & Hty & Hc). destruct (is_mc_handler _ _ Hm Hty) as [-> Hs].
    pose proof Hc as (_ & _ & _ & _ & Hel & _). destruct (Hel Hs) as [Ht _]. destruct (Ht a Ha) as (Ha0 & o & Ho & Hto).
    assert (Hi : In a (event_objs only names h e)) by (apply in_flat_map; exists nc; split; [exact Hnc|apply Hin; assumption]).
    destruct o as [m| | | | | | | | | | | | | | | | | | | |]; try discriminate.
    pose proof (numbers_pos _ _ _ _ Hnum Hnext Hi) as Hp. split; [exact Hp|].
    pose proof (Hheap nc a (OMC m) Hnc Hs Ha Ho) as Hh. unfold copy_in in Hh. rewrite Hty in Hh. cbn in Hh.
    split; [split; [lia|eexists; exact Hh]|]. unfold parents, daughters. rewrite Hh, Ho. split; reflexivity. }
  apply restore_idle.
  - intros nc' a' Hnc' Hm' Ha'. destruct (Forall2_in_r _ _ _ _ F Hnc') as (nc & Hnc & Has).
    rewrite (proj1 (coll_as_mc _ _ _ _ Has)) in Hm'. destruct (Hok nc Hnc) as (ty & Hty & _). destruct (is_mc_handler _ _ Hm' Hty) as [_ Hs].
    destruct Has as (_ & _ & ty' & _ & _ & _ & E). rewrite E, Hs in Ha'. apply in_map_iff in Ha'. destruct Ha' as (a & <- & Ha).
    apply (Hel nc a Hnc Hm' Ha).
  - intros nc' Hnc' Hm'. destruct (Forall2_in_r _ _ _ _ F Hnc') as (nc & Hnc & Has).
    rewrite (proj1 (coll_as_mc _ _ _ _ Has)) in Hm'. destruct (Hok nc Hnc) as (ty & Hty & _). destruct (is_mc_handler _ _ Hm' Hty) as [_ Hs].
    destruct Has as (_ & _ & ty' & _ & _ & _ & E). rewrite E, Hs. split; intros Hnil.
    + (* a daughter would name a particle of this collection as its parent, and so be in this collection *)
      apply flat_map_nil. intros a' Ha'. apply in_map_iff in Ha'. destruct Ha' as (a & <- & Ha).
      rewrite (proj2 (proj2 (proj2 (Hel nc a Hnc Hm' Ha)))).
      destruct (daughters_of h (read_back only names e) a) as [|d ds] eqn:Ed; [reflexivity|exfalso].
      assert (Hd : In d (daughters_of h (read_back only names e) a)) by (rewrite Ed; left; reflexivity).
      apply in_flat_map in Hd. destruct Hd as (nc2 & Hnc2 & Hd). destruct (is_mc (snd nc2)) eqn:M2; [|destruct Hd].
      apply in_flat_map in Hd. destruct Hd as (d' & Hd' & Hr). apply repeat_spec in Hr as Er. subst d'.
      assert (Hpa : In a (parents h d)).
      { apply (count_occ_In Z.eq_dec). destruct (count_occ Z.eq_dec (parents h d) a); [destruct Hr|lia]. }
      pose proof (Hown nc2 d a Hnc2 M2 Hd' Hpa) as Ha2.
      assert (Eq : nc2 = nc).
      { destruct (in_split nc _ Hnc) as (pre & post & Es). unfold event_objs in Hnd. rewrite Es in Hnd, Hnc2.
        rewrite flat_map_app in Hnd. cbn [flat_map] in Hnd. apply NoDup_app_iff in Hnd. destruct Hnd as (_ & N2 & N3).
        apply NoDup_app_iff in N2. destruct N2 as (_ & _ & N4). apply in_app_or in Hnc2.
        assert (Hn2 : In nc2 (read_back only names e)) by (rewrite Es; apply in_or_app; exact Hnc2).
        destruct Hnc2 as [H|[H|H]]; [exfalso|symmetry; exact H|exfalso].
        - apply (N3 a); [apply in_flat_map; exists nc2; split; [exact H|apply Hin; assumption]|]. apply in_or_app. left. apply Hin; assumption.
        - apply (N4 a); [apply Hin; assumption|]. apply in_flat_map. exists nc2. split; [exact H|apply Hin; assumption]. }
      subst nc2. pose proof (flat_map_eq_nil _ _ Hnil (new d) (in_map new _ _ Hd')) as Hz.
      rewrite (proj1 (proj2 (proj2 (Hel nc d Hnc Hm' Hd')))) in Hz. apply map_eq_nil in Hz. rewrite Hz in Hpa. destruct Hpa.
    + apply flat_map_nil. intros a' Ha'. apply in_map_iff in Ha'. destruct Ha' as (a & <- & Ha).
      rewrite (proj1 (proj2 (proj2 (Hel nc a Hnc Hm' Ha)))).
      destruct (parents h a) as [|p ps] eqn:Ep; [reflexivity|exfalso].
      assert (Hpa : In p (parents h a)) by (rewrite Ep; left; reflexivity).
      pose proof (Hown nc a p Hnc Hm' Ha Hpa) as Hpc.
      pose proof (flat_map_eq_nil _ _ Hnil (new p) (in_map new _ _ Hpc)) as Hz.
      rewrite (proj2 (proj2 (proj2 (Hel nc p Hnc Hm' Hpc)))) in Hz. apply map_eq_nil in Hz.
      assert (Hx : In a (daughters_of h (read_back only names e) p)).
      { apply in_flat_map. exists nc. split; [exact Hnc|]. rewrite Hm'. apply in_flat_map. exists a. split; [exact Ha|].
        apply (count_occ_In Z.eq_dec) in Hpa. destruct (count_occ Z.eq_dec (parents h a) p); [lia|left; reflexivity]. }
      rewrite Hz in Hx. destruct Hx.
Qed.

End Again.

(** ** One record *)

Section Codec.
Context (comp : Z -> bytes -> bytes) (uncomp : bytes -> option bytes) (srt : forall A : Type, (A -> Z) -> list A -> list A) (ignore_null : bool).

Lemma call_again n k l l' : finish ignore_null l = Ok l' -> ((n <= 1)%nat \/ finish ignore_null l' = Ok l') ->
  call_all ignore_null n k l = (Ok tt, map (fun k => (k, CEvt l')) (seq k n)).
Proof.
  intros H1 H2. destruct n as [|n]; [reflexivity|]. cbn [call_all]. rewrite H1.
  assert (E : forall n k, (n = 0%nat \/ finish ignore_null l' = Ok l') -> call_all ignore_null n k l' = (Ok tt, map (fun k => (k, CEvt l')) (seq k n))).
  { clear. intros n. induction n as [|n IH]; intros k H; [reflexivity|]. destruct H as [H|H]; [discriminate|]. cbn [call_all]. rewrite H, IH by (right; exact H). reflexivity. }
  rewrite E by (destruct H2 as [H2|H2]; [left; lia|right; exact H2]). reflexivity.
Qed.

Definition all_recs (ri : record_info) : bool := is_run ri || is_header ri || is_event ri.
Notation SF := (stream_func uncomp srt ignore_null).

Lemma step_run n max f st r file pos x l c d h : view file pos (x :: l) c -> rd_s r = at_pos file pos ->
  f_name x = run_record -> holds uncomp x d -> read_run_record d = Ok h ->
  exists r', read_records (S f) all_recs (SF n max) st r =
      (let st' := mkRS (rs_evt st) (rs_count st + 1) (rs_calls st ++ to_all n (CRun (with_filename r h))) in
       if rs_count st + 1 <? max then read_records f all_recs (SF n max) st' r' else (Ok tt, st', r')) /\
    rd_s r' = at_pos file (pos + f_size x) /\ same r r' /\ rd_next r' = rd_next r.
Proof.
  intros V Hr Hn Hd Hh. destruct (view_tail _ _ _ _ _ V) as [_ Hx].
  rewrite (records_take _ _ _ _ _ _ _ _ _ _ V Hr) by (unfold all_recs, is_run; cbn [f_info ri_name]; rewrite Hn; reflexivity).
  set (r1 := with_raw r (at_pos file (pos + f_size x)) (f_core x)).
  unfold stream_func at 1. replace (is_run (f_info pos x)) with true by (unfold is_run; cbn [f_info ri_name]; rewrite Hn; reflexivity).
  rewrite (record_data_spec uncomp x d pos r1 Hx Hd), Hh. destruct (same_unpack x d r1) as (S1 & S2 & S3).
  set (r2 := unpack_state x d r1) in *. exists r2.
  assert (Hs : same r r2) by (eapply same_trans; [apply same_raw|exact S1]).
  assert (Ew : with_filename r2 h = with_filename r h) by (unfold with_filename; destruct Hs as (-> & -> & _); reflexivity).
  rewrite Ew. unfold to_all. split; [destruct (rs_count st + 1 <? max); reflexivity|]. split; [rewrite S2; reflexivity|]. split; [exact Hs|rewrite S3; reflexivity].
Qed.

Lemma step_evt n max f st r file pos x y l c hd ed e0 le next' : view file pos (x :: y :: l) c -> rd_s r = at_pos file pos ->
  f_name x = header_record -> holds uncomp x hd -> f_name y = event_record -> holds uncomp y ed -> rd_lazy r = false -> rs_count st < max ->
  read_header_record (rd_names r) hd = Ok e0 -> evt_result srt ignore_null (rd_next r) ed e0 = (Ok (Some le), next') ->
  ((n <= 1)%nat \/ finish ignore_null le = Ok le) ->
  exists r', read_records (S (S f)) all_recs (SF n max) st r =
      (let st' := mkRS None (rs_count st + 1) (rs_calls st ++ to_all n (CEvt le)) in
       if rs_count st + 1 <? max then read_records f all_recs (SF n max) st' r' else (Ok tt, st', r')) /\
    rd_s r' = at_pos file (pos + f_size x + f_size y) /\ same r r' /\ rd_next r' = next'.
Proof.
  intros V Hr Hn Hd Hn2 Hd2 Hz Hmax Hh0 Her Hfin. destruct (view_tail _ _ _ _ _ V) as [V' Hx]. destruct (view_tail _ _ _ _ _ V') as [_ Hy].
  rewrite (records_take _ _ _ _ _ _ _ _ _ _ V Hr) by (unfold all_recs, is_run, is_header; cbn [f_info ri_name]; rewrite Hn; reflexivity).
  set (r1 := with_raw r (at_pos file (pos + f_size x)) (f_core x)).
  unfold stream_func at 1. replace (is_run (f_info pos x)) with false by (unfold is_run; cbn [f_info ri_name]; rewrite Hn; reflexivity).
  replace (is_header (f_info pos x)) with true by (unfold is_header; cbn [f_info ri_name]; rewrite Hn; reflexivity).
  unfold header_step. rewrite (record_data_spec uncomp x hd pos r1 Hx Hd).
  destruct (same_unpack x hd r1) as (S1 & S2 & S3). set (r2 := unpack_state x hd r1) in *.
  replace (rd_names r2) with (rd_names r) by (destruct S1 as (_ & _ & _ & _ & _ & ->); reflexivity). rewrite Hh0.
  replace (rs_count st <? max) with true by lia.
  rewrite (records_take _ _ _ _ _ file (pos + f_size x) y l c V') by (try exact S2; unfold all_recs, is_run, is_header, is_event; cbn [f_info ri_name]; rewrite Hn2; reflexivity).
  set (r3 := with_raw r2 (at_pos file (pos + f_size x + f_size y)) (f_core y)).
  unfold stream_func at 1. replace (is_run (f_info (pos + f_size x) y)) with false by (unfold is_run; cbn [f_info ri_name]; rewrite Hn2; reflexivity).
  replace (is_header (f_info (pos + f_size x) y)) with false by (unfold is_header; cbn [f_info ri_name]; rewrite Hn2; reflexivity).
  replace (is_event (f_info (pos + f_size x) y)) with true by (unfold is_event; cbn [f_info ri_name]; rewrite Hn2; reflexivity).
  cbn [rs_evt rs_count rs_calls]. unfold event_step.
  assert (S3' : same r r3) by (eapply same_trans; [apply (same_raw r (at_pos file (pos + f_size x)) (f_core x))|]; eapply same_trans; [exact S1|apply same_raw]).
  replace (rd_lazy r3) with false by (destruct S3' as (_ & _ & _ & -> & _ & _); symmetry; exact Hz).
  rewrite (record_data_spec uncomp y ed (pos + f_size x) r3 Hy Hd2). destruct (same_unpack y ed r3) as (T1 & T2 & T3). set (r4 := unpack_state y ed r3) in *.
  assert (N4 : rd_next r4 = rd_next r) by (rewrite T3; change (rd_next r3) with (rd_next r2); rewrite S3; reflexivity).
  assert (S4 : same r r4) by (eapply same_trans; eassumption). rewrite N4. unfold evt_result in Her.
  destruct (read_event_record srt ed e0 (rd_next r)) as [[[e' h'] n']|z|z]; try discriminate Her.
  destruct (post_process ignore_null h' e') as [h2|z|z] eqn:Ep; cbn [bind] in Her; try discriminate Her. injection Her as <- <-.
  assert (Hf1 : finish ignore_null (mkLE e' h' None) = Ok (mkLE e' h2 None)) by (unfold finish; cbn [le_rec le_heap le_evt]; rewrite Ep; reflexivity).
  rewrite (call_again n 0 _ _ Hf1 Hfin). exists (with_next r4 n'). unfold to_all.
  split; [destruct (rs_count st + 1 <? max); reflexivity|]. split; [cbn [with_next rd_s]; rewrite T2; reflexivity|].
  split; [eapply same_trans; [exact S4|repeat split]|reflexivity].
Qed.

(** ** The records of one file *)

Lemma stored_once names h e only s n next : stored_as (WEvt h e only) s -> readable ignore_null names (WEvt h e only) -> shareable names n (WEvt h e only) -> 0 < next ->
  exists hd ed e0 l, s = SEvt hd ed /\ read_header_record names hd = Ok e0 /\
    evt_result srt ignore_null next ed e0 = (Ok (Some l), next + Zlen (event_objs only names h e)) /\ event_copy srt names next h e only l /\
    ((n <= 1)%nat \/ finish ignore_null l = Ok l).
Proof.
  intros Hs Hr Hsh Hp. destruct (stored_event comp srt ignore_null names h e only s next Hs Hr Hp) as (hd & ed & e0 & l & E1 & E2 & E3 & E4).
  exists hd, ed, e0, l. split; [exact E1|]. split; [exact E2|]. split; [exact E3|]. split; [exact E4|].
  destruct Hsh as [Hn|Hown]; [left; exact Hn|]. right. destruct Hs as (b1 & b2 & z & _ & _ & Hok & _). destruct (item_fits comp _ _ _ _ Hok) as [He _].
  pose proof (restore_again srt names next h e only l He Hp Hown E4) as Hre.
  unfold evt_result in E3. destruct (read_event_record srt ed e0 next) as [[[e' h'] n']|z1|z1]; try discriminate E3.
  unfold post_process in E3. destruct (restore h' (ev_cols e')) as [h2|z1|z1] eqn:Er; cbn [bind] in E3; try discriminate E3.
  destruct (negb ignore_null && null_in_subset (ev_cols e')) eqn:Eb; cbn [bind] in E3; [discriminate E3|]. injection E3 as <- _.
  cbn [le_heap le_evt] in Hre. unfold finish, post_process. cbn [le_rec le_heap le_evt]. rewrite Hre. cbn [bind]. rewrite Eb. reflexivity.
Qed.

Lemma stream_short n max fn l s : stores uncomp l s -> forall Ws c file pos r st f, Forall2 stored_as Ws s ->
  Forall (readable ignore_null (rd_names r)) Ws -> Forall (shareable (rd_names r) n) Ws ->
  view file pos l c -> rd_s r = at_pos file pos -> rd_lazy r = false -> nth (rd_idx r) (rd_files r) [] = fn -> 0 < rd_next r ->
  rs_count st + Zlen Ws < max ->
  exists e evt' cs r', read_records (length l + (if c then 1 else 2) + f) all_recs (SF n max) st r =
      (Throw e, mkRS evt' (rs_count st + Zlen Ws) (rs_calls st ++ cs), r') /\
    streamed srt (rd_names r) n (rd_next r) (map (pair fn) Ws) (rd_next r') cs /\ at_stop r' /\ (c = true -> e = EEof) /\ same r r'.
Proof.
  induction 1 as [|x l s Hn H IH|x d h0 l s Hn Hd Hh H IH|x y hd ed l s Hn Hd Hg Hn2 Hd2 H IH|x hd Hn Hd Hg];
    intros Ws c file pos r st f HF HR HS V Hr Hz Hfn Hp Hmax.
  - inversion HF; subst. destruct (at_end all_recs (SF n max) f st r file pos c V Hr) as (e & r' & E & A & B & S & N).
    exists e, (rs_evt st), [], r'. cbn [length Nat.add]. rewrite E. change (Zlen []) with 0. rewrite Z.add_0_r, app_nil_r.
    split; [destruct st; reflexivity|]. split; [rewrite N; constructor|]. auto.
  - cbn [length Nat.add]. rewrite (records_skip _ _ _ _ _ _ _ _ _ _ V Hr).
    + destruct (view_tail _ _ _ _ _ V) as [V' _]. set (r1 := with_raw r (at_pos file (pos + f_size x)) (f_hdr x)).
      destruct (IH Ws c file (pos + f_size x) r1 st f HF HR HS V' eq_refl Hz Hfn Hp Hmax) as (e & evt' & cs & r' & E & A & B & C & S).
      exists e, evt', cs, r'. split; [exact E|]. split; [exact A|]. split; [exact B|]. split; [exact C|]. eapply same_trans; [apply same_raw|exact S].
    + unfold all_recs, is_run, is_header, is_event. cbn [f_info ri_name]. unfold plain_name in Hn.
      destruct (bytes_eqb (f_name x) run_record), (bytes_eqb (f_name x) header_record), (bytes_eqb (f_name x) event_record); try discriminate Hn; reflexivity.
  - inversion HF as [|w ? W ? Hs HF']; subst. inversion HR as [|? ? _ HR']; subst. inversion HS as [|? ? _ HS']; subst.
    destruct w as [hr|he ee eo]; [|destruct Hs as (? & ? & ? & _ & _ & _ & [])]. destruct Hs as (? & ? & ? & _ & _ & _ & Q). cbn in Q. subst h0.
    rewrite Zlen_cons in Hmax. pose proof (Zlen_nonneg W). cbn [length Nat.add]. destruct (view_tail _ _ _ _ _ V) as [V' _].
    destruct (step_run n max (length l + (if c then 1 else 2) + f) st r file pos x l c d hr V Hr Hn Hd Hh) as (r1 & -> & R1 & R2 & R3). cbv zeta.
    replace (rs_count st + 1 <? max) with true by lia.
    set (st1 := mkRS _ _ _). pose proof R2 as (Q1 & Q2 & Q3 & Q4 & Q5 & Q6).
    destruct (IH W c file (pos + f_size x) r1 st1 f HF') as (e & evt' & cs & r' & E & A & B & C & S); rewrite ?Q6, ?Q4, ?Q1, ?Q2, ?R3; try assumption; try reflexivity;
      [unfold st1; cbn [rs_count]; lia|].
    rewrite Q6, R3 in A.
    exists e, evt', (to_all n (CRun (run_copy (nth (rd_idx r) (rd_files r) []) hr)) ++ cs), r'. rewrite E. unfold st1. cbn [rs_count rs_calls]. rewrite Zlen_cons, <- app_assoc.
    split; [f_equal; f_equal; f_equal; lia|]. split; [cbn [map]; apply St_run; exact A|]. split; [exact B|]. split; [exact C|]. eapply same_trans; eassumption.
  - inversion HF as [|w ? W ? Hs HF']; subst. inversion HR as [|? ? Hrw HR']; subst. inversion HS as [|? ? Hsw HS']; subst.
    destruct w as [hr|he ee eo]; [destruct Hs as (? & ? & ? & _ & _ & _ & [])|].
    destruct (stored_once (rd_names r) he ee eo _ n (rd_next r) Hs Hrw Hsw Hp) as (hd' & ed' & e0 & le & Q & Eh & Er & Hc & Hfin). injection Q as <- <-.
    rewrite Zlen_cons in Hmax. pose proof (Zlen_nonneg W). cbn [length Nat.add]. destruct (view_tail _ _ _ _ _ V) as [V' _]. destruct (view_tail _ _ _ _ _ V') as [V'' _].
    destruct (step_evt n max (length l + (if c then 1 else 2) + f) st r file pos x y l c hd ed e0 le _ V Hr Hn Hd Hn2 Hd2 Hz ltac:(lia) Eh Er Hfin) as (r1 & -> & R1 & R2 & R3). cbv zeta.
    replace (rs_count st + 1 <? max) with true by lia.
    set (st1 := mkRS _ _ _). pose proof R2 as (Q1 & Q2 & Q3 & Q4 & Q5 & Q6).
    destruct (IH W c file (pos + f_size x + f_size y) r1 st1 f HF') as (e & evt' & cs & r' & E & A & B & C & S); rewrite ?Q6, ?Q4, ?Q1, ?Q2, ?R3; try assumption; try reflexivity;
      [pose proof (Zlen_nonneg (event_objs eo (rd_names r) he ee)); lia|unfold st1; cbn [rs_count]; lia|].
    rewrite Q6, R3 in A.
    exists e, evt', (to_all n (CEvt le) ++ cs), r'. rewrite E. unfold st1. cbn [rs_count rs_calls]. rewrite Zlen_cons, <- app_assoc.
    split; [f_equal; f_equal; f_equal; lia|]. split; [cbn [map]; apply St_evt; assumption|]. split; [exact B|]. split; [exact C|]. eapply same_trans; eassumption.
  - inversion HF; subst. change (Zlen []) with 0 in *. cbn [length Nat.add]. destruct (view_tail _ _ _ _ _ V) as [V' Hx].
    rewrite (records_take _ _ _ _ _ _ _ _ _ _ V Hr) by (unfold all_recs, is_run, is_header; cbn [f_info ri_name]; rewrite Hn; reflexivity).
    set (r1 := with_raw r (at_pos file (pos + f_size x)) (f_core x)).
    unfold stream_func at 1. replace (is_run (f_info pos x)) with false by (unfold is_run; cbn [f_info ri_name]; rewrite Hn; reflexivity).
    replace (is_header (f_info pos x)) with true by (unfold is_header; cbn [f_info ri_name]; rewrite Hn; reflexivity).
    unfold header_step. rewrite (record_data_spec uncomp x hd pos r1 Hx Hd).
    destruct (same_unpack x hd r1) as (S1 & S2 & S3). set (r2 := unpack_state x hd r1) in *.
    destruct (Hg (rd_names r2)) as (e0 & ->). replace (rs_count st <? max) with true by lia.
    destruct (at_end all_recs (SF n max) f (mkRS (Some e0) (rs_count st) (rs_calls st)) r2 file (pos + f_size x) c V' S2) as (e & r' & E & A & B & S & N).
    exists e, (Some e0), [], r'. rewrite E, Z.add_0_r, app_nil_r. split; [reflexivity|]. split; [rewrite N, S3; constructor|]. split; [exact A|]. split; [exact B|].
    eapply same_trans; [apply (same_raw r (at_pos file (pos + f_size x)) (f_core x))|]; eapply same_trans; [exact S1|exact S].
Qed.

Lemma stream_some n max fn l s : stores uncomp l s -> forall Ws W2 c file pos r st f, Forall2 stored_as (Ws ++ W2) s ->
  Forall (readable ignore_null (rd_names r)) Ws -> Forall (shareable (rd_names r) n) Ws ->
  view file pos l c -> rd_s r = at_pos file pos -> rd_lazy r = false -> nth (rd_idx r) (rd_files r) [] = fn -> 0 < rd_next r ->
  Zlen Ws = max - rs_count st -> Ws <> [] ->
  exists st' cs r' s2, read_records (length l + f) all_recs (SF n max) st r = (Ok tt, st', r') /\ rs_calls st' = rs_calls st ++ cs /\
    streamed srt (rd_names r) n (rd_next r) (map (pair fn) Ws) (rd_next r') cs /\ at_file uncomp file r' s2 c /\ Forall2 stored_as W2 s2 /\ same r r'.
Proof.
  induction 1 as [|x l s Hn H IH|x d h0 l s Hn Hd Hh H IH|x y hd ed l s Hn Hd Hg Hn2 Hd2 H IH|x hd Hn Hd Hg];
    intros Ws W2 c file pos r st f HF HR HS V Hr Hz Hfn Hp Hmax Hne.
  - inversion HF as [E|]. destruct Ws; [contradiction|discriminate E].
  - cbn [length Nat.add]. rewrite (records_skip _ _ _ _ _ _ _ _ _ _ V Hr).
    + destruct (view_tail _ _ _ _ _ V) as [V' _]. set (r1 := with_raw r (at_pos file (pos + f_size x)) (f_hdr x)).
      destruct (IH Ws W2 c file (pos + f_size x) r1 st f HF HR HS V' eq_refl Hz Hfn Hp Hmax Hne) as (st' & cs & r' & s2 & E & A & B & C & D & S).
      exists st', cs, r', s2. split; [exact E|]. split; [exact A|]. split; [exact B|]. split; [exact C|]. split; [exact D|]. eapply same_trans; [apply same_raw|exact S].
    + unfold all_recs, is_run, is_header, is_event. cbn [f_info ri_name]. unfold plain_name in Hn.
      destruct (bytes_eqb (f_name x) run_record), (bytes_eqb (f_name x) header_record), (bytes_eqb (f_name x) event_record); try discriminate Hn; reflexivity.
  - destruct Ws as [|w W]; [contradiction|]. cbn [app] in HF. inversion HF as [|? ? ? ? Hs HF']; subst. inversion HR as [|? ? _ HR']; subst. inversion HS as [|? ? _ HS']; subst.
    destruct w as [hr|he ee eo]; [|destruct Hs as (? & ? & ? & _ & _ & _ & [])]. destruct Hs as (? & ? & ? & _ & _ & _ & Q). cbn in Q. subst h0.
    rewrite Zlen_cons in Hmax. pose proof (Zlen_nonneg W) as HW. cbn [length Nat.add]. destruct (view_tail _ _ _ _ _ V) as [V' _].
    destruct (step_run n max (length l + f) st r file pos x l c d hr V Hr Hn Hd Hh) as (r1 & -> & R1 & R2 & R3). cbv zeta.
    pose proof R2 as (Q1 & Q2 & Q3 & Q4 & Q5 & Q6). set (st1 := mkRS _ _ _).
    destruct W as [|w W].
    + replace (rs_count st + 1 <? max) with false by (change (Zlen []) with 0 in Hmax; lia).
      exists st1, (to_all n (CRun (run_copy (nth (rd_idx r) (rd_files r) []) hr))), r1, s. split; [reflexivity|]. split; [reflexivity|].
      split; [rewrite <- (app_nil_r (to_all _ _)), R3; apply St_run; constructor|]. split; [exists (pos + f_size x), l; split; [exact R1|split; assumption]|]. split; [exact HF'|exact R2].
    + pose proof (Zlen_nonneg W) as HW1. pose proof (Zlen_cons w W) as HW2. replace (rs_count st + 1 <? max) with true by lia.
      destruct (IH (w :: W) W2 c file (pos + f_size x) r1 st1 f HF') as (st' & cs & r' & s2 & E & A & B & C & D & S); rewrite ?Q6, ?Q4, ?Q1, ?Q2, ?R3; try assumption; try reflexivity;
        [unfold st1; cbn [rs_count]; lia|discriminate|].
      rewrite Q6, R3 in B.
      exists st', (to_all n (CRun (run_copy (nth (rd_idx r) (rd_files r) []) hr)) ++ cs), r', s2. split; [exact E|].
      split; [rewrite A; unfold st1; cbn [rs_calls]; rewrite <- app_assoc; reflexivity|]. split; [cbn [map]; apply St_run; exact B|].
      split; [exact C|]. split; [exact D|]. eapply same_trans; eassumption.
  - destruct Ws as [|w W]; [contradiction|]. cbn [app] in HF. inversion HF as [|? ? ? ? Hs HF']; subst. inversion HR as [|? ? Hrw HR']; subst. inversion HS as [|? ? Hsw HS']; subst.
    destruct w as [hr|he ee eo]; [destruct Hs as (? & ? & ? & _ & _ & _ & [])|].
    destruct (stored_once (rd_names r) he ee eo _ n (rd_next r) Hs Hrw Hsw Hp) as (hd' & ed' & e0 & le & Q & Eh & Er & Hc & Hfin). injection Q as <- <-.
    rewrite Zlen_cons in Hmax. pose proof (Zlen_nonneg W) as HW. cbn [length Nat.add]. destruct (view_tail _ _ _ _ _ V) as [V' _]. destruct (view_tail _ _ _ _ _ V') as [V'' _].
    destruct (step_evt n max (length l + f) st r file pos x y l c hd ed e0 le _ V Hr Hn Hd Hn2 Hd2 Hz ltac:(lia) Eh Er Hfin) as (r1 & -> & R1 & R2 & R3). cbv zeta.
    pose proof R2 as (Q1 & Q2 & Q3 & Q4 & Q5 & Q6). set (st1 := mkRS _ _ _).
    destruct W as [|w W].
    + replace (rs_count st + 1 <? max) with false by (change (Zlen []) with 0 in Hmax; lia).
      exists st1, (to_all n (CEvt le)), r1, s. split; [reflexivity|]. split; [reflexivity|].
      split; [rewrite <- (app_nil_r (to_all _ _)), R3; apply St_evt; [assumption|constructor]|].
      split; [exists (pos + f_size x + f_size y), l; split; [exact R1|split; assumption]|]. split; [exact HF'|exact R2].
    + pose proof (Zlen_nonneg W) as HW1. pose proof (Zlen_cons w W) as HW2. replace (rs_count st + 1 <? max) with true by lia.
      destruct (IH (w :: W) W2 c file (pos + f_size x + f_size y) r1 st1 f HF') as (st' & cs & r' & s2 & E & A & B & C & D & S); rewrite ?Q6, ?Q4, ?Q1, ?Q2, ?R3; try assumption; try reflexivity;
        [pose proof (Zlen_nonneg (event_objs eo (rd_names r) he ee)); lia|unfold st1; cbn [rs_count]; lia|discriminate|].
      rewrite Q6, R3 in B.
      exists st', (to_all n (CEvt le) ++ cs), r', s2. split; [exact E|].
      split; [rewrite A; unfold st1; cbn [rs_calls]; rewrite <- app_assoc; reflexivity|]. split; [cbn [map]; apply St_evt; assumption|].
      split; [exact C|]. split; [exact D|]. eapply same_trans; eassumption.
  - inversion HF as [E|]. destruct Ws; [contradiction|discriminate E].
Qed.

(** ** Several files *)

Lemma streamed_app names n a W1 b cs1 W2 c cs2 : streamed srt names n a W1 b cs1 -> streamed srt names n b W2 c cs2 -> streamed srt names n a (W1 ++ W2) c (cs1 ++ cs2).
Proof.
  induction 1 as [next|next f h l next' cs H IH|next f h e only l le next' cs Hc H IH]; intros H2; [exact H2| |];
    cbn [app]; rewrite <- app_assoc; constructor; auto.
Qed.
Lemma streamed_mono names n a W b cs : streamed srt names n a W b cs -> a <= b.
Proof.
  induction 1 as [next|next f h l next' cs H IH|next f h e only l le next' cs Hc H IH]; try lia. pose proof (Zlen_nonneg (event_objs only names h e)). lia.
Qed.

Definition named (nW : bytes * list witem) : list (bytes * witem) := map (pair (fst nW)) (snd nW).
Definition small_file (d : disk) (nW : bytes * list witem) : Prop :=
  exists S, content uncomp d (fst nW) S /\ Forall2 stored_as (snd nW) S /\ Zlen (snd nW) < max_int.
(** the reader has the items [W] in front of it *)
Definition laid (d : disk) (r : reader) (W : list (bytes * witem)) (c : bool) : Prop :=
  exists before n Ws S rest, rd_files r = before ++ n :: map fst rest /\ rd_idx r = length before /\ rd_lazy r = false /\
    at_items uncomp r S c /\ Forall2 stored_as Ws S /\ Zlen Ws < max_int /\ (c = true \/ rest = []) /\ Forall (small_file d) rest /\
    W = named (n, Ws) ++ flat_map named rest.

Lemma small_contents d rest : Forall (small_file d) rest ->
  exists L, map fst L = map fst rest /\ Forall (fun nS => content uncomp d (fst nS) (snd nS)) L.
Proof.
  induction 1 as [|[n W] rest (S & H1 & H2 & H3) _ (L & E & F)]; [exists []; split; [reflexivity|constructor]|].
  exists ((n, S) :: L). cbn [map fst]. rewrite E. split; [reflexivity|]. constructor; assumption.
Qed.

Lemma records_all r file pos l c : rd_s r = at_pos file pos -> view file pos l c -> exists f, reader_fuel r = (length l + (if c then 1 else 2) + f)%nat.
Proof. intros H V. rewrite (fuel_of r file pos H). exact (fuel_enough uncomp _ _ _ _ V). Qed.

Lemma Forall_snd (P : witem -> Prop) n Ws : Forall (fun w => P (snd w)) (named (n, Ws)) -> Forall P Ws.
Proof. unfold named. cbn [fst snd]. induction Ws as [|w Ws IH]; intros H; [constructor|]. inversion H; subst. constructor; auto. Qed.

Lemma over_stream d c k rest : forall f r before n Ws S calls max, (length rest <= f)%nat ->
  rd_files r = before ++ n :: map fst rest -> rd_idx r = length before -> rd_lazy r = false -> at_items uncomp r S c -> Forall2 stored_as Ws S ->
  Zlen Ws < max_int -> (c = true \/ rest = []) -> Forall (small_file d) rest ->
  Forall (fun w => readable ignore_null (rd_names r) (snd w)) (named (n, Ws) ++ flat_map named rest) ->
  Forall (fun w => shareable (rd_names r) k (snd w)) (named (n, Ws) ++ flat_map named rest) -> 0 < rd_next r -> 0 < max <= max_int ->
  (max < max_int -> forall W1 W2, named (n, Ws) ++ flat_map named rest = W1 ++ W2 -> Zlen W1 = max ->
     exists cs r', read_stream_files uncomp srt ignore_null f d k max calls r = (Ok tt, calls ++ cs, r') /\
       streamed srt (rd_names r) k (rd_next r) W1 (rd_next r') cs /\ laid d r' W2 c /\ rd_names r' = rd_names r) /\
  (max = max_int \/ Zlen (named (n, Ws) ++ flat_map named rest) < max ->
     exists x cs r', read_stream_files uncomp srt ignore_null f d k max calls r = (x, calls ++ cs, r') /\
       streamed srt (rd_names r) k (rd_next r) (named (n, Ws) ++ flat_map named rest) (rd_next r') cs /\ at_stop r' /\
       (c = true -> x = if max =? max_int then Ok tt else Throw LEndOfData) /\ (x = Ok tt \/ exists e, x = Throw e)).
Proof.
  induction rest as [|[x Wx] rest IH]; intros f r before n Ws S calls max Hf Hfiles Hidx Hz HA HW Hb Hcr Hrest HR HS Hp Hmax;
    assert (Hfn : nth (rd_idx r) (rd_files r) [] = n) by (rewrite Hfiles, Hidx, app_nth2 by lia; rewrite Nat.sub_diag; reflexivity);
    pose proof (proj1 (proj1 (Forall_app _ _ _) HR)) as HR1; apply Forall_snd in HR1; pose proof (proj1 (proj1 (Forall_app _ _ _) HS)) as HS1; apply Forall_snd in HS1;
    assert (Hsome : forall W1 W2, named (n, Ws) = W1 ++ W2 -> Zlen W1 = max ->
       exists cs r', read_stream_files uncomp srt ignore_null f d k max calls r = (Ok tt, calls ++ cs, r') /\
         streamed srt (rd_names r) k (rd_next r) W1 (rd_next r') cs /\ rd_names r' = rd_names r /\
         forall R, Forall (small_file d) R -> rd_files r = before ++ n :: map fst R -> (c = true \/ R = []) -> laid d r' (W2 ++ flat_map named R) c)
    by (intros W1 W2 E1 E2; unfold named in E1; cbn [fst snd] in E1; apply map_eq_app in E1; destruct E1 as (Wa & Wb & -> & <- & <-);
        destruct HA as (file & pos & l & Hr & V & Hst); destruct (records_all r file pos l c Hr V) as (fu & Ef);
        rewrite <- Nat.add_assoc in Ef;
        apply Forall_app in HR1; apply Forall_app in HS1;
        assert (Hne : Wa <> []) by (intros ->; change (Zlen (map (pair n) [])) with 0 in E2; lia);
        assert (Ez : Zlen Wa = max - 0) by (unfold Zlen in *; rewrite map_length in E2; lia);
        destruct (stream_some k max n l S Hst Wa Wb c file pos r (mkRS None 0 calls) ((if c then 1 else 2) + fu) HW (proj1 HR1) (proj1 HS1) V Hr Hz Hfn Hp Ez Hne)
          as (st' & cs & r' & s2 & Er & Ec & Hs & Hat & HF2 & Hsm);
        exists cs, r'; split; [destruct f; cbn [read_stream_files]; fold all_recs; rewrite Ef, Er, Ec; reflexivity|]; split; [exact Hs|];
        destruct Hsm as (Q1 & Q2 & Q3 & Q4 & Q5 & Q6); split; [exact Q6|]; intros R HR' Hfi HcR; exists before, n, Wb, s2, R; rewrite Q1, Q2, Q4;
        split; [exact Hfi|]; split; [exact Hidx|]; split; [exact Hz|]; split; [exists file; exact Hat|]; split; [exact HF2|];
        split; [unfold Zlen in *; rewrite app_length in Hb; lia|]; split; [exact HcR|]; split; [exact HR'|reflexivity]).
  - cbn [flat_map]. rewrite app_nil_r. split.
    + intros _ W1 W2 E1 E2. destruct (Hsome W1 W2 E1 E2) as (cs & r' & A & B & C & D). exists cs, r'. split; [exact A|]. split; [exact B|]. split; [|exact C].
      specialize (D [] (Forall_nil _) Hfiles (or_intror eq_refl)). cbn [flat_map] in D. rewrite app_nil_r in D. exact D.
    + intros Hs. destruct HA as (file & pos & l & Hr & V & Hst). destruct (records_all r file pos l c Hr V) as (fu & Ef).
      assert (El : Zlen (named (n, Ws)) = Zlen Ws) by (unfold named, Zlen; rewrite map_length; reflexivity). rewrite El in Hs.
      destruct (stream_short k max n l S Hst Ws c file pos r (mkRS None 0 calls) fu HW HR1 HS1 V Hr Hz Hfn Hp) as (e & evt' & cs & r' & Er & Hst' & Hstop & He & Hsm);
        [cbn [rs_count]; destruct Hs as [->|Hs]; lia|]. cbn [rs_count rs_calls] in Er. rewrite <- Ef in Er.
      assert (Hn : next_file r' = None). { unfold next_file. destruct Hsm as (-> & -> & _). rewrite Hfiles, Hidx. apply nth_error_None. rewrite app_length. cbn. lia. }
      assert (Hend : read_stream_files uncomp srt ignore_null f d k max calls r =
        (match e with EEof => if max =? max_int then Ok tt else Throw LEndOfData | _ => Throw e end, calls ++ cs, r')).
      { destruct f; cbn [read_stream_files]; fold all_recs; rewrite Er; destruct e; rewrite ?Hn; reflexivity. }
      do 3 eexists. split; [exact Hend|]. split; [exact Hst'|]. split; [exact Hstop|]. split; [intros Hc; rewrite (He Hc); reflexivity|].
      destruct e; try (right; eexists; reflexivity). destruct (max =? max_int); [left; reflexivity|right; eexists; reflexivity].
  - destruct Hcr as [->|Hcr]; [|discriminate Hcr].
    destruct f as [|f]; [cbn in Hf; lia|]. cbn [map fst] in Hfiles. inversion Hrest as [|? ? Hx Hrest']; subst x0 l.
    assert (Hgo : Zlen Ws < max -> exists cs r2 Sx, read_stream_files uncomp srt ignore_null (Datatypes.S f) d k max calls r =
        read_stream_files uncomp srt ignore_null f d k (if max =? max_int then max else max - Zlen Ws) (calls ++ cs) r2 /\
      streamed srt (rd_names r) k (rd_next r) (named (n, Ws)) (rd_next r2) cs /\ rd_files r2 = (before ++ [n]) ++ x :: map fst rest /\
      rd_idx r2 = length (before ++ [n]) /\ rd_lazy r2 = false /\ at_items uncomp r2 Sx true /\ Forall2 stored_as Wx Sx /\ Zlen Wx < max_int /\ rd_names r2 = rd_names r).
    { intros Hlt. pose proof HA as (file & pos & l & Hr & V & Hst). destruct (records_all r file pos l true Hr V) as (fu & Ef).
      destruct (stream_short k max n l S Hst Ws true file pos r (mkRS None 0 calls) fu HW HR1 HS1 V Hr Hz Hfn Hp) as (e & evt' & cs & r1 & Er & Hst' & Hstop & He & Hsm);
        [cbn [rs_count]; lia|]. cbn [rs_count rs_calls] in Er. rewrite <- Ef in Er. rewrite (He eq_refl) in Er.
      destruct Hsm as (Q1 & Q2 & Q3 & Q4 & Q5 & Q6). destruct Hx as (Sx & Hx1 & Hx2 & Hx3). cbn [fst snd] in Hx1, Hx2, Hx3.
      destruct (small_contents d rest Hrest') as (L & EL & FL).
      destruct (next_open uncomp d r1 before n x Sx L ltac:(rewrite EL; congruence) ltac:(congruence) ltac:(congruence) Hx1 FL) as (r2 & N & O & _ & P1 & P2 & P3 & P4 & P5 & P6).
      exists cs, r2, Sx. cbn [read_stream_files]. fold all_recs. rewrite Er, N, O. cbn [rs_count rs_calls]. split; [reflexivity|].
      split; [rewrite P2; exact Hst'|]. split; [rewrite P3, Q1, Hfiles, <- app_assoc; reflexivity|]. split; [exact P4|]. split; [exact P6|]. split; [exact P5|].
      split; [exact Hx2|]. split; [exact Hx3|]. congruence. }
    assert (El : Zlen (named (n, Ws)) = Zlen Ws) by (unfold named, Zlen; rewrite map_length; reflexivity).
    pose proof (proj2 (proj1 (Forall_app _ _ _) HR)) as HR2. pose proof (proj2 (proj1 (Forall_app _ _ _) HS)) as HS2. cbn [flat_map] in HR2, HS2.
    split.
    + intros Hm W1 W2 E1 E2. apply app_eq_app in E1. destruct E1 as (l & [[E3 E4]|[E3 E4]]).
      * destruct (Hsome W1 l E3 E2) as (cs & r' & A & B & C & D). exists cs, r'. split; [exact A|]. split; [exact B|]. split; [|exact C].
        rewrite E4. apply (D ((x, Wx) :: rest) Hrest Hfiles (or_introl eq_refl)).
      * destruct l as [|y l].
        { rewrite app_nil_r in E3. rewrite E3 in E2. cbn [app] in E4. rewrite <- E4.
          destruct (Hsome (named (n, Ws)) [] ltac:(rewrite app_nil_r; reflexivity) E2) as (cs & r' & A & B & C & D). exists cs, r'. split; [exact A|].
          split; [rewrite E3; exact B|]. split; [|exact C]. apply (D ((x, Wx) :: rest) Hrest Hfiles (or_introl eq_refl)). }
        rewrite E3, Zlen_app, Zlen_cons, El in E2. pose proof (Zlen_nonneg l).
        destruct Hgo as (cs & r2 & Sx & -> & Hs & P1 & P2 & P3 & P4 & P5 & P6 & P7); [lia|]. replace (max =? max_int) with false by lia.
        pose proof (streamed_mono _ _ _ _ _ _ Hs). pose proof (Zlen_nonneg Ws).
        destruct (IH f r2 (before ++ [n]) x Wx Sx (calls ++ cs) (max - Zlen Ws)) as [IH1 _]; try assumption; [cbn in Hf; lia|left; reflexivity|rewrite P7; exact HR2|rewrite P7; exact HS2|lia|lia|].
        destruct (IH1 ltac:(lia) (y :: l) W2 E4 ltac:(rewrite Zlen_cons; lia)) as (cs' & r' & A & B & C & D).
        exists (cs ++ cs'), r'. rewrite A, app_assoc. split; [reflexivity|]. rewrite P7 in B, D. split; [rewrite E3; eapply streamed_app; eassumption|]. split; assumption.
    + intros Hs. assert (Hlt : Zlen Ws < max).
      { destruct Hs as [->|Hs]; [exact Hb|]. rewrite Zlen_app, El in Hs. pose proof (Zlen_nonneg (flat_map named ((x, Wx) :: rest))). lia. }
      destruct (Hgo Hlt) as (cs & r2 & Sx & -> & Hst & P1 & P2 & P3 & P4 & P5 & P6 & P7). pose proof (streamed_mono _ _ _ _ _ _ Hst). pose proof (Zlen_nonneg Ws).
      set (max' := if max =? max_int then max else max - Zlen Ws).
      assert (Hm' : 0 < max' <= max_int /\ (max' =? max_int) = (max =? max_int)).
      { unfold max'. destruct (max =? max_int) eqn:Em; [lia|]. destruct Hs as [Hs|Hs]; [lia|]. rewrite Zlen_app, El in Hs.
        pose proof (Zlen_nonneg (flat_map named ((x, Wx) :: rest))). destruct (Z.eq_dec (Zlen Ws) 0); [split; [lia|lia]|split; lia]. }
      destruct (IH f r2 (before ++ [n]) x Wx Sx (calls ++ cs) max') as [_ IH2]; try assumption; [cbn in Hf; lia|left; reflexivity|rewrite P7; exact HR2|rewrite P7; exact HS2|lia|apply Hm'|].
      destruct IH2 as (y & cs' & r' & A & B & C & D & E).
      { unfold max'. destruct (max =? max_int) eqn:Em; [left; lia|right]. destruct Hs as [Hs|Hs]; [lia|]. rewrite Zlen_app, El in Hs. cbn [flat_map] in Hs. lia. }
      exists y, (cs ++ cs'), r'. rewrite A, app_assoc. split; [reflexivity|]. rewrite P7 in B. split; [eapply streamed_app; eassumption|]. split; [exact C|].
      split; [rewrite <- (proj2 Hm'); exact D|exact E].
Qed.

(** one call of readStream *)
Theorem stream_call d r W c k max : laid d r W c -> Forall (fun w => readable ignore_null (rd_names r) (snd w)) W ->
  Forall (fun w => shareable (rd_names r) k (snd w)) W -> 0 < rd_next r -> 0 < max <= max_int ->
  (max < max_int -> forall W1 W2, W = W1 ++ W2 -> Zlen W1 = max ->
     exists cs r', read_stream uncomp srt ignore_null d k max r = (Ok tt, cs, r') /\
       streamed srt (rd_names r) k (rd_next r) W1 (rd_next r') cs /\ laid d r' W2 c /\ rd_names r' = rd_names r) /\
  (max = max_int \/ Zlen W < max ->
     exists x cs r', read_stream uncomp srt ignore_null d k max r = (x, cs, r') /\
       streamed srt (rd_names r) k (rd_next r) W (rd_next r') cs /\ at_stop r' /\
       (c = true -> x = if max =? max_int then Ok tt else Throw LEndOfData) /\ (x = Ok tt \/ exists e, x = Throw e)).
Proof.
  intros (before & n & Ws & S & rest & H1 & H2 & H3 & H4 & H5 & H6 & H7 & H8 & ->) HR HS Hp Hm.
  exact (over_stream d c k rest (length (rd_files r)) r before n Ws S [] max ltac:(rewrite H1, app_length; cbn [length]; rewrite map_length; lia) H1 H2 H3 H4 H5 H6 H7 H8 HR HS Hp Hm).
Qed.
Lemma stream_stop d r k max : at_stop r -> exists r', read_stream uncomp srt ignore_null d k max r = (Throw EBadState, [], r') /\ at_stop r'.
Proof.
  intros [H1 H2]. unfold read_stream. destruct (length (rd_files r)); cbn [read_stream_files]; unfold reader_fuel, stream_fuel; rewrite records_failed by assumption;
    (eexists; split; [reflexivity|split; assumption]).
Qed.

(** any sequence of calls *)
Theorem run_streams_spec d ops names : Forall (fun nm => 0 < snd nm <= max_int) ops -> forall r W, laid d r W true -> rd_names r = names -> 0 < rd_next r ->
  Forall (fun w => readable ignore_null names (snd w)) W -> Forall (fun w => Forall (fun nm => shareable names (fst nm) (snd w)) ops) W ->
  streams srt names (rd_next r) (Some W) ops (run_streams uncomp srt ignore_null d ops r).
Proof.
  intros Hops.
  assert (Hlate : forall ops r next, at_stop r -> streams srt names next None ops (run_streams uncomp srt ignore_null d ops r)).
  { clear. induction ops as [|[n max] ops IH]; intros r next Hs; [constructor|]. cbn [run_streams]. destruct (stream_stop d r n max Hs) as (r' & -> & Hs').
    apply SS_late. apply IH. exact Hs'. }
  induction Hops as [|[n max] ops Hm Hops IH]; intros r W HL Hnm Hp HR HS; [constructor|]. cbn [run_streams snd] in *.
  assert (HS1 : Forall (fun w => shareable (rd_names r) n (snd w)) W).
  { rewrite Forall_forall in HS |- *. intros w Hw. specialize (HS w Hw). inversion HS; subst. assumption. }
  assert (HS2 : Forall (fun w => Forall (fun nm => shareable names (fst nm) (snd w)) ops) W).
  { rewrite Forall_forall in HS |- *. intros w Hw. specialize (HS w Hw). inversion HS; subst. assumption. }
  assert (HR1 : Forall (fun w => readable ignore_null (rd_names r) (snd w)) W) by (rewrite Hnm; exact HR).
  destruct (stream_call d r W true n max HL HR1 HS1 Hp Hm) as [C1 C2].
  destruct (Z.eq_dec max max_int) as [Em|Em].
  - destruct (C2 (or_introl Em)) as (x & cs & r' & -> & A & B & D & _). rewrite (D eq_refl), Em, Z.eqb_refl. rewrite Hnm in A. eapply SS_all; [exact A|]. apply Hlate. exact B.
  - destruct (Z_lt_ge_dec (Zlen W) max) as [Hlt|Hge].
    + destruct (C2 (or_intror Hlt)) as (x & cs & r' & -> & A & B & D & _). rewrite (D eq_refl). replace (max =? max_int) with false by lia. rewrite Hnm in A.
      eapply SS_short; [lia|exact Hlt|exact A|]. apply Hlate. exact B.
    + rewrite <- (firstn_skipn (Z.to_nat max) W) in HR, HS2 |- *.
      assert (E1 : Zlen (firstn (Z.to_nat max) W) = max) by (unfold Zlen in *; rewrite firstn_length; lia).
      destruct (C1 ltac:(lia) (firstn (Z.to_nat max) W) (skipn (Z.to_nat max) W)) as (cs & r' & -> & A & B & D); [symmetry; apply firstn_skipn|exact E1|].
      rewrite Hnm in A. eapply SS_some; [lia|exact E1|exact A|]. apply Forall_app in HR, HS2. apply IH; [exact B|congruence| |apply HR|apply HS2].
      pose proof (streamed_mono _ _ _ _ _ _ A). lia.
Qed.

(** ** Files that were written *)

Lemma wf_small d f : codec_ok comp uncomp -> wf_ok comp uncomp d f -> small_file d (wf_name f, items_of (wf_sess f)) /\ named (wf_name f, items_of (wf_sess f)) = wf_items f /\
  (Forall (sess_covers comp) (wf_sess f) -> exists data body fr c, d (wf_name f) = Some data /\ closed data body fr c).
Proof.
  intros Hc Hf. pose proof Hf as (Hs & Hm). destruct (made_inv comp uncomp d (wf_name f) (wf_first f) (wf_more f) Hc Hs Hm) as (data & body & E & Es & S & Hd & Hi).
  split; [|split; [reflexivity|]].
  - exists S. cbn [fst snd]. split; [eapply inv_content; eassumption|]. split; [exact (inv_stored comp uncomp _ _ _ _ _ _ Hi (proj1 Hs))|].
    destruct Hs as (_ & _ & Hn & _). assert (El : Zlen (items_of (wf_sess f)) = count (wf_sess f)).
    { unfold items_of. generalize (wf_sess f). clear. induction l as [|s l IH]; [reflexivity|]. cbn [flat_map count fold_right]. rewrite Zlen_app, IH. f_equal. unfold Zlen. rewrite map_length. reflexivity. }
    rewrite El. fold (wf_sess f) in Hn. unfold max_int. lia.
  - intros Hcv. destruct (inv_closed comp uncomp _ _ _ _ _ _ Hi Hcv) as (fr & Hcl). exists data, body, fr. eexists. split; [exact Hd|exact Hcl].
Qed.

Lemma files_laid d files direct names raw cbuf mraw next : codec_ok comp uncomp -> files <> [] -> Forall (wf_ok comp uncomp d) files ->
  (direct = true -> match files with f :: _ => Forall (sess_covers comp) (wf_sess f) | [] => True end) ->
  exists r, open_files uncomp d (map wf_name files) (new_reader direct false names raw cbuf mraw next) = (Ok tt, r) /\
    laid d r (flat_map wf_items files) true /\ rd_names r = names /\ rd_next r = next.
Proof.
  intros Hc Hne Hok Hdir. destruct files as [|f files]; [contradiction|]. inversion Hok as [|? ? Hf Hfs]; subst.
  destruct (wf_small d f Hc Hf) as ((S & (data & lb & Hd & Hv & Hst) & HS & Hb) & En & Hcl). cbn [fst snd] in *.
  set (rest := map (fun f => (wf_name f, items_of (wf_sess f))) files).
  assert (Er : map fst rest = map wf_name files) by (unfold rest; rewrite map_map; reflexivity).
  assert (Fr : Forall (small_file d) rest).
  { unfold rest. clear -Hc Hfs. induction Hfs as [|g l Hg _ IH]; [constructor|]. cbn [map]. constructor; [apply (wf_small d g Hc Hg)|exact IH]. }
  assert (Ef : flat_map wf_items (f :: files) = named (wf_name f, items_of (wf_sess f)) ++ flat_map named rest).
  { cbn [flat_map]. rewrite <- En. f_equal. unfold rest. clear. induction files as [|g l IH]; [reflexivity|]. cbn [map flat_map]. rewrite IH. reflexivity. }
  assert (Hex : existsb (fun m => match d m with None => true | Some _ => false end) (map wf_name (f :: files)) = false).
  { cbn [map existsb]. rewrite Hd. cbn [orb]. rewrite <- Er. clear -Fr. induction Fr as [|[m Wm] rest (S & (dm & lm & Hm & _) & _) _ IH]; [reflexivity|]. cbn [map existsb fst] in *. rewrite Hm. exact IH. }
  unfold open_files. cbn [map] in Hex |- *. rewrite Hex. unfold open_file. rewrite Hd. cbn [with_s with_files new_reader rd_direct].
  assert (HL : forall r, rd_files r = wf_name f :: map wf_name files -> rd_idx r = 0%nat -> rd_lazy r = false -> rd_s r = open_ifs data -> laid d r (flat_map wf_items (f :: files)) true).
  { intros r R1 R2 R3 R4. exists [], (wf_name f), (items_of (wf_sess f)), S, rest. rewrite Er. split; [exact R1|]. split; [exact R2|]. split; [exact R3|].
    split; [exists data, 0, lb; split; [exact R4|split; assumption]|]. split; [exact HS|]. split; [exact Hb|]. split; [left; reflexivity|]. split; [exact Fr|exact Ef]. }
  destruct direct.
  - destruct (Hcl (Hdir eq_refl)) as (data' & body & fr & c & Hd' & Hc'). rewrite Hd in Hd'. injection Hd' as <-.
    unfold get_map. cbn [with_s with_files new_reader rd_s rd_mgr rd_direct].
    destruct (create_closed uncomp data body fr c (open_ifs data) (new_mgr mraw) Hc' (conj eq_refl eq_refl) eq_refl) as (g' & Eg & _). rewrite Eg. cbn [bind].
    eexists. split; [reflexivity|]. split; [|split; reflexivity]. apply HL; reflexivity.
  - eexists. split; [reflexivity|]. split; [|split; reflexivity]. apply HL; reflexivity.
Qed.

(** calls of readStream after opening files *)
Theorem stream_files_spec d files ops direct names raw cbuf mraw next :
  codec_ok comp uncomp -> files <> [] -> Forall (wf_ok comp uncomp d) files ->
  (direct = true -> match files with f :: _ => Forall (sess_covers comp) (wf_sess f) | [] => True end) ->
  Forall (fun w => readable ignore_null names (snd w)) (flat_map wf_items files) ->
  Forall (fun w => Forall (fun nm => shareable names (fst nm) (snd w)) ops) (flat_map wf_items files) ->
  Forall (fun nm => 0 < snd nm <= max_int) ops -> 0 < next ->
  streams srt names next (Some (flat_map wf_items files)) ops
    (stream_files uncomp srt ignore_null d (map wf_name files) ops (new_reader direct false names raw cbuf mraw next)).
Proof.
  intros Hc Hne Hok Hdir HR HS Hops Hp. destruct (files_laid d files direct names raw cbuf mraw next Hc Hne Hok Hdir) as (r & O & HL & N1 & N2).
  unfold stream_files. rewrite O, <- N2. apply run_streams_spec; [exact Hops|exact HL|exact N1|lia|exact HR|exact HS].
Qed.

(** one call of readStream for a file that was cut off *)
Theorem stream_truncated d0 d f k n max names raw cbuf mraw next data :
  codec_ok comp uncomp -> wf_ok comp uncomp d0 f -> d0 (wf_name f) = Some data -> 0 <= k ->
  d (wf_name f) = Some (firstn (Z.to_nat k) data) ->
  Forall (fun w => readable ignore_null names (snd w)) (wf_items f) -> Forall (fun w => shareable names n (snd w)) (wf_items f) ->
  0 < next -> 0 < max <= max_int ->
  exists ps m, located data 0 (texts comp (wf_sess f)) ps /\
    (forall j p t, nth_error ps j = Some p -> nth_error (texts comp (wf_sess f)) j = Some t ->
       ((j < m)%nat -> p + Zlen t <= k + 3) /\ ((m <= j)%nat -> k < p + Zlen t)) /\
    exists x cs next', stream_files uncomp srt ignore_null d [wf_name f] [(n, max)] (new_reader false false names raw cbuf mraw next) = [(x, cs)] /\
      (if (max <? max_int) && (max <=? Zlen (firstn m (wf_items f)))
       then x = Ok tt /\ streamed srt names n next (firstn (Z.to_nat max) (wf_items f)) next' cs
       else (x = Ok tt \/ exists e, x = Throw e) /\ streamed srt names n next (firstn m (wf_items f)) next' cs).
Proof.
  intros Hc Hf Hd0 Hk Hd HR HSh Hp Hmax. destruct (wf_small d0 f Hc Hf) as ((S0 & _ & _ & Hb) & _). cbn [snd] in Hb. destruct Hf as (Hs & Hm).
  destruct (made_inv comp uncomp d0 (wf_name f) (wf_first f) (wf_more f) Hc Hs Hm) as (data' & body & E & Es & S & Hd' & Hi).
  rewrite Hd0 in Hd'. injection Hd' as <-.
  pose proof (inv_stored comp uncomp _ _ _ _ _ _ Hi (proj1 Hs)) as FS.
  destruct Hi as (lb & fra & fr & xa & a & I1 & I2 & I3 & I4 & I5 & _).
  fold (wf_sess f) in I5, FS.
  destruct (layout_cut comp uncomp 0 lb E (texts comp (wf_sess f)) S [fra] I5 I3) with (k := k) as (m & Hst & Hcut).
  { constructor; [exact (proj1 (access_name _ _ I4))|constructor]. }
  exists (map snd E), m. split.
  { rewrite I2, I1. change (ftext lb ++ f_bytes fra) with ([] ++ ftext lb ++ f_bytes fra). apply (layout_located comp uncomp 0 lb E _ S I5); [reflexivity|lia]. }
  split.
  { intros j p t Hj Ht. rewrite nth_error_map in Hj. destruct (nth_error E j) as [e|] eqn:Ee; [|discriminate]. injection Hj as <-. exact (Hcut j e t Ee Ht). }
  assert (Hfo : Forall f_ok (lb ++ [fra])) by (apply Forall_app; split; [exact I3|constructor; [exact (proj2 (access_name _ _ I4))|constructor]]).
  destruct (view_truncated (lb ++ [fra]) [] k Hfo Hk) as (c & V).
  rewrite Z.sub_0_r in Hst.
  assert (Edata : data = ftext (lb ++ [fra])) by (rewrite I2, I1, ftext_app; cbn [ftext flat_map]; rewrite app_nil_r; reflexivity).
  rewrite <- Edata in V. cbn [app] in V. change (Zlen []) with 0 in V.
  unfold stream_files, open_files. cbn [existsb]. rewrite Hd. cbn [orb]. unfold open_file. rewrite Hd. cbn [with_s with_files new_reader rd_direct rd_files].
  set (r := with_s _ _).
  assert (Ew : firstn m (wf_items f) = named (wf_name f, firstn m (items_of (wf_sess f)))) by (unfold named, wf_items; cbn [fst snd]; apply firstn_map).
  assert (HL : laid d r (firstn m (wf_items f)) c).
  { exists [], (wf_name f), (firstn m (items_of (wf_sess f))), (firstn m S), []. split; [reflexivity|]. split; [reflexivity|]. split; [reflexivity|].
    split; [exists (firstn (Z.to_nat k) data), 0, (whole k (lb ++ [fra])); split; [reflexivity|split; assumption]|].
    split; [clear -FS; revert m; induction FS as [|i s W S H _ IH]; intros [|m]; constructor; auto|].
    split; [unfold Zlen in *; rewrite firstn_length; lia|]. split; [right; reflexivity|]. split; [constructor|]. cbn [flat_map]. rewrite app_nil_r. exact Ew. }
  assert (Hpre : forall P : bytes * witem -> Prop, Forall P (wf_items f) -> Forall P (firstn m (wf_items f))).
  { intros P H. apply Forall_forall. intros w Hw. rewrite Forall_forall in H. apply H. rewrite <- (firstn_skipn m). apply in_or_app. left. exact Hw. }
  destruct (stream_call d r _ c n max HL (Hpre _ HR) (Hpre _ HSh) Hp Hmax) as [C1 C2]. cbn [run_streams].
  destruct ((max <? max_int) && (max <=? Zlen (firstn m (wf_items f)))) eqn:Eb.
  - assert (Hm1 : max < max_int /\ max <= Zlen (firstn m (wf_items f))) by lia. destruct Hm1 as [Hm1 Hm2].
    destruct (C1 Hm1 (firstn (Z.to_nat max) (wf_items f)) (skipn (Z.to_nat max) (firstn m (wf_items f)))) as (cs & r' & -> & A & _).
    { rewrite <- (firstn_skipn (Z.to_nat max) (firstn m (wf_items f))) at 1. f_equal. rewrite firstn_firstn. f_equal. unfold Zlen in Hm2. rewrite firstn_length in Hm2. lia. }
    { unfold Zlen in *. rewrite firstn_length in *. lia. }
    exists (Ok tt), cs, (rd_next r'). split; [reflexivity|]. split; [reflexivity|exact A].
  - destruct (C2 ltac:(destruct (max <? max_int) eqn:E1; cbn [andb] in Eb; lia)) as (x & cs & r' & -> & A & _ & _ & B).
    exists x, cs, (rd_next r'). split; [|split; [exact B|exact A]]. destruct x; [reflexivity|reflexivity|]. destruct B as [B|(e & B)]; discriminate B.
Qed.
End Codec.
