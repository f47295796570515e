(** * Proofs about readmcparticles *)

From Verif Require Import Bytes BitModel StrMap SioModel SioProofs SioSpec Ieee ObjModel ObjSpec ObjProofs CollSpec EventModel EventSpec EventProofs EventFacts
  IndexModel IndexSpec IndexProofs FileModel IndexFile IndexFacts FileSpec FileWrite FileSessions FileRead FileSeq FileDeliver FileFacts FileUse FileDirect FileMore FileCount
  ImplModel ViewModel ShowModel AnaModel AnaSpec AnaProofs CalSpec CalProofs McSumModel McSumSpec.

Section McSum.
Context (comp : Z -> bytes -> bytes) (uncomp : bytes -> option bytes) (srt : forall A : Type, (A -> Z) -> list A -> list A) (ignore_null : bool).
Context (energy : list Z -> Z -> Z) (dadd : Z -> Z -> Z).

Lemma as_keys h f cols cols' : Forall2 (coll_as h f) cols cols' -> map fst cols' = map fst cols.
Proof. induction 1 as [|x y l l' (E & _) _ IH]; [reflexivity|]. cbn [map]. rewrite E, IH. reflexivity. Qed.
Lemma as_get h f cols cols' k : Forall2 (coll_as h f) cols cols' ->
  match sm_get k cols with
  | Some c => exists c' k', sm_get k cols' = Some c' /\ In (k', c) cols /\ coll_as h f (k', c) (k', c')
  | None => sm_get k cols' = None
  end.
Proof.
  induction 1 as [|[a c] [a' c'] cols cols' H _ IH]; [reflexivity|]. pose proof H as (E & _). cbn [fst] in E. subst a'. cbn [sm_get].
  destruct (str_cmp k a); [exists c', a; split; [reflexivity|]; split; [left; reflexivity|exact H]|reflexivity|].
  destruct (sm_get k cols) as [x|]; [|exact IH]. destruct IH as (c1 & k1 & G & I1 & H1). exists c1, k1. split; [exact G|]. split; [right; exact I1|exact H1].
Qed.
Lemma ms_sum (f h : heap) (new : addr -> addr) : forall l ms sum, Forall2 (fun a m => h a = Some (OMC m)) l ms ->
  (forall a m, In a l -> h a = Some (OMC m) -> 0 < new a /\ exists m', f (new a) = Some (OMC m') /\ mc_gen m' = mc_gen m /\ mc_p m' = map as_float (mc_p m) /\ mc_mass m' = as_float (mc_mass m)) ->
  ms_particles energy dadd f (map new l) sum = Ok (fold_left dadd (stable_energies energy ms) sum).
Proof.
  intros l ms sum H. revert sum. induction H as [|a m l ms Ha _ IH]; intros sum HN; [reflexivity|]. cbn [map ms_particles].
  destruct (HN a m (or_introl eq_refl) Ha) as (Hp & m' & E & G & P & M). destruct (Z.eqb_spec (new a) 0) as [Z0|_]; [lia|]. rewrite E, G, P, M, IH by (intros b mb Hb; apply HN; right; exact Hb).
  unfold stable_energies. cbn [filter]. destruct (mc_gen m =? 1); reflexivity.
Qed.
Lemma stored_sorted only e : sm_ok (ev_cols e) -> sm_ok (stored_cols only e).
Proof.
  unfold sm_ok, stored_cols, sm_keys. generalize (ev_cols e). intros l. induction l as [|x l IH]; intros H; [constructor|]. cbn [map] in H.
  cbn [filter]. inversion H as [|? ? S0 F0]; subst. match goal with |- context [if ?b then _ else _] => destruct b end; [|exact (IH S0)]. cbn [map]. constructor; [exact (IH S0)|].
  apply Forall_forall. intros y Hy. rewrite Forall_forall in F0. apply F0. apply in_map_iff in Hy. destruct Hy as (z & <- & Hz). apply filter_In in Hz. apply in_map. exact (proj1 Hz).
Qed.
Lemma ms_copied next h e only le ms : 0 < next -> event_ok only h e -> has_particles (WEvt h e only) ms -> event_copy srt [] next h e only le ->
  ms_event energy dadd (le_heap le) (ev_cols (le_evt le)) = Ok (fold_left dadd (stable_energies energy ms) 0).
Proof.
  intros Hn (_ & _ & _ & _ & _ & Hs & _ & HO & _) (c & Hin & Ht & Hsub & Hm) (_ & _ & new & HN & HF & HH). unfold event_objs in HN. rewrite read_back_all in *. cbv zeta in *.
  assert (HO' : Forall (fun nc => exists ty, get_handler (c_type (snd nc)) = Some ty /\ coll_ok ty h (snd nc)) (stored_cols only e)) by (revert HO; apply Forall_impl; intros nc (_ & _ & H); exact H).
  pose proof (fun ty a => placed new h only e ty next a HO' HN Hn) as PL.
  set (tgt := target new (event_tags only [] h e)) in *. clearbody tgt. pose proof (stored_sorted only e Hs) as Hk.
  pose proof (as_get h _ _ _ (str "MCParticle") HF) as G. rewrite (proj2 (sm_get_In _ _ _ Hk) Hin) in G. destruct G as (c' & k' & G & _ & (_ & _ & ty & _ & _ & _ & He)). cbn [snd] in He.
  assert (HW : forall a, In a (c_elems c) -> written_in (str "MCParticle") (stored_cols only e) a).
  { intros a Ha. destruct (is_subset c) eqn:Es; [|exists (str "MCParticle", c); repeat (split; [assumption|]); exact Ha]. specialize (Hsub eq_refl). rewrite Forall_forall in Hsub. exact (Hsub a Ha). }
  assert (HM : forall a, In a (c_elems c) -> exists m, h a = Some (OMC m)).
  { intros a Ha. clear - Hm Ha. induction Hm as [|b m l ms Hb _ IH]; [destruct Ha|]. destruct Ha as [<-|Ha]; [exists m; exact Hb|exact (IH Ha)]. }
  assert (HP : forall a, In a (c_elems c) -> 0 < new a /\ tgt a = new a).
  { intros a Ha. apply (PL _ a (HW a Ha)). intros o fl Ho. destruct (HM a Ha) as [m Em]. rewrite Em in Ho. injection Ho as <-. reflexivity. }
  unfold ms_event. rewrite G, He. rewrite (map_ext_in _ new) by (intros a Ha; destruct (is_subset c); [exact (proj2 (HP a Ha))|reflexivity]).
  apply (ms_sum _ h); [exact Hm|]. intros a m Ha Hh. split; [exact (proj1 (HP a Ha))|]. destruct (HW a Ha) as (nw & Hiw & Htw & Hsw & Haw).
  rewrite (HH nw a (OMC m) Hiw Hsw Haw Hh). unfold copy_in. rewrite Htw. cbn. eexists. split; [reflexivity|]. cbn. repeat split.
Qed.
Lemma ms_lacks next h e only le : event_ok only h e -> no_particles (WEvt h e only) -> event_copy srt [] next h e only le ->
  ms_event energy dadd (le_heap le) (ev_cols (le_evt le)) = Throw LDataNotAvailable.
Proof.
  intros (_ & _ & _ & _ & _ & Hs & _) Hno (_ & _ & new & HN & HF & HH). rewrite read_back_all in *. cbv zeta in *. pose proof (stored_sorted only e Hs) as Hk.
  pose proof (as_get h _ _ _ (str "MCParticle") HF) as G. destruct (sm_get (str "MCParticle") (stored_cols only e)) as [c|] eqn:E.
  - destruct Hno. apply (sm_get_In _ _ _ Hk) in E. apply in_map_iff. exists (str "MCParticle", c). split; [reflexivity|exact E].
  - unfold ms_event. rewrite G. reflexivity.
Qed.

(** what the loop makes of the events *)
Fixpoint ms_all (l : list levent) (n sum : Z) : Res (Z * Z) :=
  match l with [] => Ok (n, sum) | le :: l' => do x <- ms_event energy dadd (le_heap le) (ev_cols (le_evt le)); ms_all l' (n + 1) (dadd sum x) end.
Lemma loop_all d : forall fuel r l n sum, ana_events uncomp srt ignore_null fuel d r = Ok l -> ms_loop uncomp srt ignore_null energy dadd fuel d r n sum = ms_all l n sum.
Proof.
  induction fuel as [|fuel IH]; intros r l n sum H; [discriminate H|]. cbn [ana_events ms_loop] in H |- *.
  destruct (read_next_event uncomp srt ignore_null d r) as [[[le|]|e|k] r1]; try discriminate H.
  - destruct (ana_events uncomp srt ignore_null fuel d r1) as [ls|e|k] eqn:E; cbn [bind] in H; [|discriminate H..]. injection H as H; subst l.
    cbn [ms_all]. destruct (ms_event energy dadd (le_heap le) (ev_cols (le_evt le))); [|reflexivity..]. cbn [bind]. apply IH. exact E.
  - injection H as H; subst l. reflexivity.
Qed.
Ltac imposs := try (exfalso; match goal with H : has_particles (WRun _) _ |- _ => exact H | H : no_particles (WRun _) |- _ => exact H | H : is_run (WEvt _ _ _) |- _ => exact H end).
Definition good (w : bytes * witem) : Prop := match snd w with WRun _ => True | WEvt h e only => event_ok only h e end.
Lemma all_sum : forall next W l, copies srt [] next W l -> 0 < next -> Forall good W -> forall P, particles (map snd W) P -> forall n sum,
  ms_all l n sum = Ok (n + Zlen P, fold_left dadd (map (fun ms => fold_left dadd (stable_energies energy ms) 0) P) sum).
Proof.
  intros next W l H. induction H as [next|next n0 h W l _ IH|next n0 h e only W le l Hc _ IH]; intros Hn HO P HP n sum; cbn [map snd] in HP.
  - inversion HP; subst. cbn. rewrite Z.add_0_r. reflexivity.
  - inversion HO; subst. inversion HP; subst; imposs. apply IH; assumption.
  - inversion HO as [|? ? O1 HO']; subst. unfold good in O1. cbn [snd] in O1. inversion HP as [|? ? ? R0 _|? ? ms P' Hm HP']; subst; imposs. cbn [ms_all]. rewrite (ms_copied next h e only le ms Hn O1 Hm Hc). cbn [bind map fold_left].
    rewrite (IH ltac:(pose proof (Zlen_nonneg (event_objs only [] h e)); lia) HO' P' HP'). f_equal. f_equal. unfold Zlen. cbn [length]. lia.
Qed.
Lemma all_lacks : forall next W l, copies srt [] next W l -> 0 < next -> Forall good W -> lacking (map snd W) -> forall n sum, ms_all l n sum = Throw LDataNotAvailable.
Proof.
  intros next W l H. induction H as [next|next n0 h W l _ IH|next n0 h e only W le l Hc _ IH]; intros Hn HO HP n sum; cbn [map snd] in HP.
  - inversion HP.
  - inversion HO; subst. inversion HP; subst; imposs. apply IH; assumption.
  - inversion HO as [|? ? O1 HO']; subst. unfold good in O1. cbn [snd] in O1. inversion HP as [? ? R0 _|? ? ms Hm HP'|? ? Hno]; subst; imposs; cbn [ms_all].
    + rewrite (ms_copied next h e only le ms Hn O1 Hm Hc). cbn [bind]. apply IH; [pose proof (Zlen_nonneg (event_objs only [] h e)); lia|assumption..].
    + rewrite (ms_lacks next h e only le O1 Hno Hc). reflexivity.
Qed.
Theorem ms_done d f fuel raw cbuf mraw next more_args : codec_ok comp uncomp -> wf_ok comp uncomp d f -> Forall (readable ignore_null []) (items_of (wf_sess f)) ->
  0 < next -> (length (items_of (wf_sess f)) < fuel)%nat ->
  exists W l, map snd W = items_of (wf_sess f) /\ Forall good W /\ copies srt [] next W l /\
    readmcparticles uncomp srt ignore_null energy dadd fuel d (wf_name f :: more_args) (new_reader false false [] raw cbuf mraw next) = (do x <- ms_all l 0 0; Ok (Some x)).
Proof.
  intros HC HW HR Hn Hfu. set (r0 := new_reader false false [] raw cbuf mraw next).
  assert (I0 : idle [] next r0) by (repeat (split; [reflexivity|]); exists mraw; reflexivity).
  assert (MS : map snd (wf_items f) = items_of (wf_sess f)) by (unfold wf_items; rewrite map_map; cbn [snd]; apply map_id).
  destruct (idle_open comp uncomp d [f] [] next r0 HC ltac:(discriminate) (Forall_cons _ HW (Forall_nil _)) I0) as (L & r1 & O & S1 & N1 & X1 & _ & F1).
  cbn [flat_map] in F1. rewrite app_nil_r in F1.
  destruct (events_all comp uncomp srt ignore_null d fuel _ L r1 S1 F1) as (l & E & C).
  { rewrite N1. unfold wf_items. apply Forall_map. exact HR. } { lia. } { unfold wf_items. rewrite map_length. exact Hfu. }
  rewrite N1, X1 in C. exists (wf_items f), l. split; [exact MS|]. split; [unfold wf_items; apply Forall_map; apply items_good; exact (proj1 (proj1 HW))|]. split; [exact C|].
  assert (OF : open_file uncomp d (wf_name f) r0 = (Ok tt, r1)).
  { unfold ana_open, open_files in O. cbn [map existsb] in O. destruct (d (wf_name f)) as [data|] eqn:Hd; cbn [orb] in O; [|discriminate O].
    unfold open_file in O |- *. rewrite Hd in O |- *. cbn in O |- *. injection O as <-. reflexivity. }
  unfold readmcparticles. rewrite OF, (loop_all d fuel r1 l 0 0 E). reflexivity.
Qed.
End McSum.
