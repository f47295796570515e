(** * Writing from several threads: all executions *)

From Coq Require Import Permutation.
From Verif Require Import Bytes StrMap ListFacts SioModel SioSpec SioProofs SioRecord SioFrame Ieee ObjModel ObjSpec EventModel EventSpec EventProofs EventFacts IndexModel IndexSpec
  FileModel FileSpec FileFrame FileWrite IndexFile FileSessions FileFacts SplitSpec SplitProofs ThreadModel ThreadSpec ThreadProofs ThreadInv.

(** how much of a call is done, and how much of its program a thread has left *)
Definition rank (p : pc) : nat :=
  match p with
  | PStart => 0 | PBuf _ _ => 1 | PTest _ _ _ => 2 | PComp _ _ _ => 3 | PLock _ _ _ => 4 | PCheck _ _ _ => 5
  | PPut _ _ recs _ => 10 - length recs
  | PAdd _ _ _ => 11 | PMax _ => 12 | PUnlock _ => 13 | PClose => 5 | PReset => 6 | PShut => 7
  end.
Definition cost (th : thread) : nat := 20 * length (th_todo th) - rank (th_pc th).
Definition total_cost (ths : list thread) : nat := sum_of cost ths.

Lemma cost_finish th o l a : th_todo th = o :: l -> (rank (th_pc th) <= 13)%nat -> (cost (finish th a) < cost th)%nat.
Proof. intros E H. unfold cost, finish. rewrite E. cbn [th_todo th_pc length rank]. lia. Qed.
Lemma cost_goto th p o l : th_todo th = o :: l -> (rank (th_pc th) < rank p <= 13)%nat -> (cost (goto th p) < cost th)%nat.
Proof. intros E H. unfold cost, goto. cbn [th_todo th_pc]. rewrite E. cbn [length]. lia. Qed.
Lemma rank_small p : (rank p <= 13)%nat.
Proof. destruct p; cbn [rank]; lia. Qed.

Section Run.
Context (comp : Z -> bytes -> bytes) (uncomp : bytes -> option bytes) (b1 b2 raw : buffer).
Context (HC : codec_all comp uncomp) (U1 : usable b1) (U2 : usable b2) (Ur : usable raw).
Context (level : Z) (progs : list (list top)) (HP : programs_ok progs).
Notation C := (labelled_comp comp).
Notation zs := (levels level progs).
Notation inv := (inv comp b1 b2 raw level progs).
Notation phase := (phase comp b1 b2 raw level progs).
Notation rest := (rest comp b1 b2 raw).
Notation opened := (opened comp b1 b2 raw).
Notation closed := (closed comp b1 b2 raw).
Notation ready := (ready comp b1 b2 level progs).

(** a thread that cannot go on *)
Definition blocked (sh : shared) (th : thread) : Prop := th_todo th = [] \/ (sh_lock sh <> None /\ critical (th_pc th) = false).

Lemma level_in z t p : nth_error progs t = Some p -> In (TLevel z) p -> In z zs.
Proof.
  intros Hp Hz. right. apply in_flat_map. exists p. split; [eapply nth_error_In; exact Hp|]. apply in_flat_map. exists (TLevel z). split; [exact Hz|left; reflexivity].
Qed.

Lemma step_inv log sh ths t p th : inv log sh ths -> nth_error progs t = Some p -> nth_error ths t = Some th ->
  exists log' sh' th', tstep comp t sh th = Ok (sh', th') /\ inv log' sh' (update ths t th') /\
    ((cost th' < cost th)%nat \/ sh' = sh /\ th' = th /\ blocked sh th).
Proof.
  intros I Hp Ht. pose proof (i_th _ _ _ _ _ _ _ _ _ I t p th Hp Ht) as T. pose proof T as (Tp & Tc & Tl & Ta & Tk).
  pose proof (i_max _ _ _ _ _ _ _ _ _ I) as Hmax. pose proof (i_level _ _ _ _ _ _ _ _ _ I) as Hlev.
  pose proof (fun i l E => todo_item comp b1 b2 level progs HP t p th log sh i l T Hp E) as Hitem.
  assert (Hph : critical (th_pc th) = true -> sh_lock sh = Some t /\ phase log sh (all_closes ths) th).
  { intros K. specialize (Tk K). split; [exact Tk|]. destruct (i_held _ _ _ _ _ _ _ _ _ I t Tk) as (th2 & E2 & _ & P). rewrite Ht in E2. injection E2 as <-. exact P. }
  pose proof (fun q => closes_goto ths t th q Ht) as Hcg.
  destruct th as [pc todo don]. cbn [th_pc th_todo th_done] in *. unfold local_ok in Tl. cbn [th_pc th_todo] in Tl.
  assert (Hstay : forall x, blocked sh (mkTh pc todo don) -> tstep comp t sh (mkTh pc todo don) = Ok (sh, mkTh pc todo don) -> x = tt ->
    exists log' sh' th', tstep comp t sh (mkTh pc todo don) = Ok (sh', th') /\ inv log' sh' (update ths t th') /\
    ((cost th' < cost (mkTh pc todo don))%nat \/ sh' = sh /\ th' = mkTh pc todo don /\ blocked sh (mkTh pc todo don))).
  { intros _ B E _. exists log, sh, (mkTh pc todo don). split; [exact E|]. split; [rewrite (update_id _ _ _ Ht); exact I|]. right. auto. }
  assert (Hlocal : forall log' sh' th', map fst (th_done th') ++ th_todo th' = map fst don ++ todo ->
     log' = log -> committed th' = committed (mkTh pc todo don) -> local_ok comp b1 b2 level progs th' -> answers_ok sh' th' -> critical pc = false -> critical (th_pc th') = false ->
     tcloses th' = closes todo -> sh_lock sh' = sh_lock sh -> sh_out sh' = sh_out sh -> sh_mgr sh' = sh_mgr sh -> sh_file sh' = sh_file sh -> sh_max sh' = sh_max sh -> In (sh_level sh') zs ->
     inv log' sh' (update ths t th')).
  { intros log' sh' th' A1 A2 A3 A4 A5 A6 A7 A8 A9 A10 A11 A12 A13 A14.
    eapply inv_update; [exact I|exact Ht|exact A1|left; split; assumption|exact A4|exact A5|congruence|rewrite A13; exact Hmax|exact A14|].
    right. right. split; [exact A7|]. split; [exact A9|]. split; [exact A6|]. split; [exact A2|]. split; [exact A8|]. auto. }
  destruct pc as [|i n|i key raws|i key raws|key recs size|key recs size|key st recs size|key st size|size|a| | |].
  - (* PStart *)
    destruct todo as [|[i|z|] l].
    + apply (Hstay tt); [left; reflexivity|reflexivity|reflexivity].
    + exists log, sh, (goto (mkTh PStart (TWrite i :: l) don) (PBuf i (sh_max sh))). split; [reflexivity|]. split.
      * apply Hlocal; try reflexivity; try assumption. split; [reflexivity|apply Hmax].
      * left. eapply cost_goto; [reflexivity|]. cbn [rank th_pc]. lia.
    + exists log, (set_lev sh z), (finish (mkTh PStart (TLevel z :: l) don) TDone). split; [reflexivity|]. split.
      * apply Hlocal; try reflexivity; try assumption.
        -- exact (program_finish (mkTh PStart (TLevel z :: l) don) _ _ _ eq_refl).
        -- unfold committed, written_by, pending, finish. cbn [th_pc th_todo th_done]. rewrite flat_map_app. cbn [flat_map]. rewrite !app_nil_r. reflexivity.
        -- exact (answers_finish (set_lev sh z) (mkTh PStart (TLevel z :: l) don) _ _ _ eq_refl Ta (or_introl eq_refl)).
        -- cbn [set_lev sh_level]. eapply level_in; [exact Hp|]. rewrite <- Tp. apply in_or_app. right. left. reflexivity.
      * left. eapply cost_finish; [reflexivity|cbn; lia].
    + destruct (sh_lock sh) as [u|] eqn:El.
      * apply (Hstay tt); [right; split; [congruence|reflexivity]| |reflexivity]. cbn [tstep th_pc th_todo]. unfold take. rewrite El. reflexivity.
      * exists log, (set_lock sh (Some t)), (goto (mkTh PStart (TClose :: l) don) PClose). split; [cbn [tstep th_pc th_todo]; unfold take; rewrite El; reflexivity|]. split.
        -- eapply inv_update; [exact I|exact Ht|reflexivity|left; split; reflexivity|reflexivity|exact Ta|exact (fun x => x)|exact Hmax|exact Hlev|].
           left. split; [reflexivity|]. split; [reflexivity|]. split; [left; exact El|]. rewrite Hcg.
           destruct (i_free _ _ _ _ _ _ _ _ _ I El) as [[O L]|[_ L]]; [split; [exact O|exact L]|].
           exfalso. pose proof (sum_member tcloses ths t _ Ht) as M. fold (all_closes ths) in M. rewrite L in M. cbn in M. lia.
        -- left. eapply cost_goto; [reflexivity|]. cbn [rank th_pc]. lia.
  - (* PBuf *)
    destruct todo as [|[j|z|] l]; cbn [critical] in Tl; try discriminate Tl. destruct Tl as [<- Hn].
    destruct (raw_item_ok comp uncomp b1 b2 HC U1 U2 n i Hn (Hitem i l eq_refl)) as (raws & E & R).
    exists log, sh, (goto (mkTh (PBuf i n) (TWrite i :: l) don) (PTest i (item_key i) raws)). split; [cbn [tstep th_pc]; rewrite E; reflexivity|]. split.
    + apply Hlocal; try reflexivity; try assumption. split; [reflexivity|exact R].
    + left. eapply cost_goto; [reflexivity|]. cbn [rank th_pc]. lia.
  - (* PTest *)
    destruct todo as [|[j|z|] l]; cbn [critical] in Tl; try discriminate Tl. destruct Tl as [<- R]. cbn [tstep th_pc].
    destruct (Z.eqb_spec (sh_level sh) 0) as [L|L]; cbn [negb].
    + eexists log, sh, _. split; [reflexivity|]. split.
      * apply Hlocal; try reflexivity; try assumption. destruct R as (R1 & R2 & R3 & (i' & R4) & _).
        split; [exact R1|]. split; [exact R3|]. split; [rewrite map_length; exact R2|]. exists 0. split; [left; split; [reflexivity|rewrite <- L; exact Hlev]|]. exists i'. exact R4.
      * left. eapply cost_goto; [reflexivity|]. cbn [rank th_pc]. lia.
    + eexists log, sh, _. split; [reflexivity|]. split.
      * apply Hlocal; try reflexivity; try assumption. split; [reflexivity|exact R].
      * left. eapply cost_goto; [reflexivity|]. cbn [rank th_pc]. lia.
  - (* PComp *)
    destruct todo as [|[j|z|] l]; cbn [critical] in Tl; try discriminate Tl. destruct Tl as [<- R]. cbn [tstep th_pc].
    destruct R as (R1 & R2 & R3 & _ & R5). destruct (R5 (sh_level sh)) as (recs & E & Lr & Er). rewrite E. cbn [catch].
    eexists log, sh, _. split; [reflexivity|]. split.
    + apply Hlocal; try reflexivity; try assumption. split; [exact R1|]. split; [exact R3|]. split; [exact Lr|]. exists (lab (sh_level sh)). split; [|exact Er].
      right. exists (sh_level sh). split; [exact Hlev|reflexivity].
    + left. eapply cost_goto; [reflexivity|]. cbn [rank th_pc]. lia.
  - (* PLock *)
    destruct todo as [|[j|z|] l]; cbn [critical] in Tl; try discriminate Tl. destruct (sh_lock sh) as [u|] eqn:El.
    + apply (Hstay tt); [right; split; [congruence|reflexivity]| |reflexivity]. cbn [tstep th_pc]. unfold take. rewrite El. reflexivity.
    + exists log, (set_lock sh (Some t)), (goto (mkTh (PLock key recs size) (TWrite j :: l) don) (PCheck key recs size)).
      split; [cbn [tstep th_pc]; unfold take; rewrite El; reflexivity|]. split.
      * eapply inv_update; [exact I|exact Ht|reflexivity|left; split; reflexivity|reflexivity|exact Ta|exact (fun x => x)|exact Hmax|exact Hlev|].
        left. split; [reflexivity|]. split; [reflexivity|]. split; [left; exact El|]. rewrite Hcg. split; [exact Tl|]. exact (i_free _ _ _ _ _ _ _ _ _ I El).
      * left. eapply cost_goto; [reflexivity|]. cbn [rank th_pc]. lia.
  - (* PCheck *)
    destruct (Hph eq_refl) as [El P]. cbn [ThreadInv.phase th_pc th_todo] in P. destruct todo as [|[i|z|] l]; try (exfalso; exact P).
    destruct P as [R [[(w & W & O & M) Lc]|[Cl Lc]]]; cbn [tstep th_pc].
    + rewrite O. eexists log, sh, _. split; [reflexivity|]. split.
      * eapply inv_update; [exact I|exact Ht|reflexivity|left; split; reflexivity|reflexivity|exact Ta|exact (fun x => x)|exact Hmax|exact Hlev|].
        left. split; [reflexivity|]. split; [exact El|]. split; [right; exact El|]. rewrite Hcg. exists [], w. split; [exact R|]. split; [exact W|]. split; [exact O|]. split; [exact M|]. split; [reflexivity|exact Lc].
      * left. eapply cost_goto; [reflexivity|]. destruct R as (_ & _ & R & _). cbn [rank th_pc]. lia.
    + pose proof Cl as (O & _). rewrite O. eexists log, sh, _. split; [reflexivity|]. split.
      * eapply inv_update; [exact I|exact Ht|reflexivity|left; split; reflexivity|reflexivity|exact Ta|exact (fun x => x)|exact Hmax|exact Hlev|].
        left. split; [reflexivity|]. split; [exact El|]. split; [right; exact El|]. rewrite Hcg. split; [reflexivity|]. split; [exact Cl|exact Lc].
      * left. eapply cost_goto; [reflexivity|]. cbn [rank th_pc]. lia.
  - (* PPut *)
    destruct (Hph eq_refl) as [El P]. cbn [ThreadInv.phase th_pc th_todo] in P. destruct todo as [|[i|z|] l]; try (exfalso; exact P).
    destruct P as (recs1 & w & R & W & O & M & S & Lc). cbn [tstep th_pc]. rewrite O. destruct recs as [|x recs].
    + eexists log, sh, _. split; [reflexivity|]. split.
      * eapply inv_update; [exact I|exact Ht|reflexivity|left; split; reflexivity|reflexivity|exact Ta|exact (fun x => x)|exact Hmax|exact Hlev|].
        left. split; [reflexivity|]. split; [exact El|]. split; [right; exact El|]. rewrite Hcg. exists recs1, w. rewrite app_nil_r in R. split; [exact R|]. split; [exact W|]. split; [exact O|]. split; [exact M|].
        split; [|exact Lc]. rewrite S. destruct recs1; reflexivity.
      * left. eapply cost_goto; [reflexivity|]. cbn [rank th_pc length]. lia.
    + eexists log, _, _. split; [reflexivity|]. split.
      * eapply inv_update; [exact I|exact Ht|reflexivity|left; split; reflexivity|reflexivity| |cbn [set_out sh_out]; congruence|exact Hmax|exact Hlev|].
        { intros o a Ha. destruct (Ta o a Ha) as [->|(X & _)]; [left; reflexivity|congruence]. }
        left. split; [reflexivity|]. split; [exact El|]. split; [right; exact El|]. rewrite Hcg. exists (recs1 ++ [x]), w.
        split; [rewrite <- app_assoc; exact R|]. split; [exact W|]. split; [cbn [set_out sh_out]; rewrite fold_left_app; reflexivity|]. split; [exact M|].
        split; [|exact Lc]. rewrite S. destruct recs1; reflexivity.
      * left. eapply cost_goto; [reflexivity|]. destruct R as (_ & _ & R & _). rewrite app_length in R. cbn [rank th_pc length] in *. lia.
  - (* PAdd *)
    destruct (Hph eq_refl) as [El P]. cbn [ThreadInv.phase th_pc th_todo] in P. destruct todo as [|[i|z|] l]; try (exfalso; exact P).
    destruct P as (recs & w & (R1 & R2 & R3 & n & R4 & R5) & W & O & M & -> & Lc). cbn [tstep th_pc]. rewrite M. subst key.
    eexists (log ++ [(t, (n, i))]), _, _. split; [reflexivity|]. split.
    + eapply inv_update; [exact I|exact Ht|reflexivity| |reflexivity|exact Ta|exact (fun x => x)|exact Hmax|exact Hlev|].
      { right. exists n, i. split; [reflexivity|]. split; [exact R4|]. unfold committed, written_by, pending. cbn [goto th_done th_pc th_todo]. rewrite app_nil_r. reflexivity. }
      left. split; [reflexivity|]. split; [exact El|]. split; [right; exact El|]. rewrite Hcg. split; [exact R2|]. split; [|exact Lc].
      eexists. split; [exact (wrote_snoc comp b1 b2 raw log w t n i recs W R5)|]. split; [exact O|reflexivity].
    + left. eapply cost_goto; [reflexivity|]. cbn [rank th_pc]. lia.
  - (* PMax *)
    destruct (Hph eq_refl) as [El P]. cbn [ThreadInv.phase th_pc th_todo] in P. destruct todo as [|[i|z|] l]; try (exfalso; exact P).
    destruct P as (Hs & O & Lc). cbn [tstep th_pc]. eexists log, _, _. split; [reflexivity|]. split.
    + assert (G : forall sh', sh_out sh' = sh_out sh -> sh_mgr sh' = sh_mgr sh -> sh_lock sh' = sh_lock sh -> sh_level sh' = sh_level sh -> size_ok (sh_max sh') ->
        inv log sh' (update ths t (goto (mkTh (PMax size) (TWrite i :: l) don) (PUnlock TDone)))).
      { intros sh' E1 E2 E3 E4 E5. eapply inv_update; [exact I|exact Ht|reflexivity|left; split; reflexivity|reflexivity| |congruence|exact E5|rewrite E4; exact Hlev|].
        { intros o a Ha. destruct (Ta o a Ha) as [->|(X & Y)]; [left; reflexivity|]. right. split; [congruence|exact Y]. }
        left. split; [reflexivity|]. split; [congruence|]. split; [right; exact El|]. rewrite Hcg. split; [|exact Lc].
        destruct O as (w & W & O & M). exists w. split; [exact W|]. split; congruence. }
      destruct (sh_max sh <? size); apply G; try reflexivity; [|exact Hmax]. cbn [set_max sh_max]. unfold u32. destruct Hs as [H0 H1]. rewrite Z.mod_small by lia. split; lia.
    + left. eapply cost_goto; [reflexivity|]. cbn [rank th_pc]. lia.
  - (* PUnlock *)
    destruct (Hph eq_refl) as [El P]. cbn [ThreadInv.phase th_pc th_todo] in P. cbn [tstep th_pc]. destruct todo as [|o l]; [destruct a; exfalso; exact P|].
    pose proof (closes_finish ths t _ o l a Ht eq_refl) as Hcf.
    exists log, (set_lock sh None), (finish (mkTh (PUnlock a) (o :: l) don) a). split; [reflexivity|]. split; [|left; eapply cost_finish; [reflexivity|cbn; lia]].
    assert (G : (a = TDone \/ (sh_out sh = None /\ a = TThrew LIOException /\ exists i, o = TWrite i)) ->
      committed (finish (mkTh (PUnlock a) (o :: l) don) a) = committed (mkTh (PUnlock a) (o :: l) don) ->
      rest log sh (all_closes (update ths t (finish (mkTh (PUnlock a) (o :: l) don) a))) ->
      inv log (set_lock sh None) (update ths t (finish (mkTh (PUnlock a) (o :: l) don) a))).
    { intros A1 A2 A3. eapply inv_update; [exact I|exact Ht|exact (program_finish (mkTh (PUnlock a) (o :: l) don) _ _ _ eq_refl)|left; split; [reflexivity|exact A2]|exact Logic.I
        |exact (answers_finish (set_lock sh None) (mkTh (PUnlock a) (o :: l) don) _ _ _ eq_refl Ta A1)|exact (fun x => x)|exact Hmax|exact Hlev|].
      right. left. split; [reflexivity|]. split; [reflexivity|]. split; [right; exact El|]. exact A3. }
    destruct a as [|e], o as [i|z|]; try (exfalso; exact P).
    + apply G; [left; reflexivity| |]. { unfold committed, written_by, pending, finish. cbn [th_pc th_todo th_done]. rewrite flat_map_app, app_nil_r. reflexivity. }
      left. cbn [is_close] in Hcf. split; [exact (proj1 P)|]. destruct P. lia.
    + apply G; [left; reflexivity| |]. { unfold committed, written_by, pending, finish. cbn [th_pc th_todo th_done]. rewrite flat_map_app, !app_nil_r. reflexivity. }
      right. cbn [is_close] in Hcf. split; [exact (proj1 P)|]. destruct P. lia.
    + destruct P as (-> & Cl & Lc). apply G.
      * right. split; [exact (proj1 Cl)|]. split; [reflexivity|]. exists i. reflexivity.
      * unfold committed, written_by, pending, finish. cbn [th_pc th_todo th_done]. rewrite flat_map_app, !app_nil_r. reflexivity.
      * right. cbn [is_close] in Hcf. split; [exact Cl|]. lia.
  - (* PClose *)
    destruct (Hph eq_refl) as [El P]. cbn [ThreadInv.phase th_pc th_todo] in P. destruct todo as [|[i|z|] l]; try (exfalso; exact P).
    destruct P as ((w & W & O & M) & Lc). cbn [tstep th_pc]. rewrite M, O.
    destruct (log_written comp uncomp b1 b2 raw HC U1 U2 Ur level progs HP _ _ _ I) as (w' & g & o & W' & A & _). unfold wrote in W, W'. rewrite W in W'. injection W' as <-. rewrite A.
    eexists log, _, _. split; [reflexivity|]. split.
    + eapply inv_update; [exact I|exact Ht|reflexivity|left; split; reflexivity|reflexivity| |congruence|exact Hmax|exact Hlev|].
      { intros q a Ha. destruct (Ta q a Ha) as [->|(X & _)]; [left; reflexivity|congruence]. }
      left. split; [reflexivity|]. split; [exact El|]. split; [right; exact El|]. rewrite Hcg. split; [|split; [|exact Lc]].
      * exists o. split; [exists w, g; split; assumption|reflexivity].
      * eexists. reflexivity.
    + left. eapply cost_goto; [reflexivity|]. cbn [rank th_pc]. lia.
  - (* PReset *)
    destruct (Hph eq_refl) as [El P]. cbn [ThreadInv.phase th_pc th_todo] in P. destruct todo as [|[i|z|] l]; try (exfalso; exact P).
    destruct P as (O & _ & Lc). cbn [tstep th_pc]. eexists log, _, _. split; [reflexivity|]. split.
    + eapply inv_update; [exact I|exact Ht|reflexivity|left; split; reflexivity|reflexivity|exact Ta|exact (fun x => x)|exact Hmax|exact Hlev|].
      left. split; [reflexivity|]. split; [exact El|]. split; [right; exact El|]. rewrite Hcg. split; [exact O|]. split; [reflexivity|exact Lc].
    + left. eapply cost_goto; [reflexivity|]. cbn [rank th_pc]. lia.
  - (* PShut *)
    destruct (Hph eq_refl) as [El P]. cbn [ThreadInv.phase th_pc th_todo] in P. destruct todo as [|[i|z|] l]; try (exfalso; exact P).
    destruct P as ((o & Cl & O) & M & Lc). cbn [tstep th_pc]. rewrite O. eexists log, _, _. split; [reflexivity|]. split.
    + eapply inv_update; [exact I|exact Ht|reflexivity|left; split; reflexivity|reflexivity| |reflexivity|exact Hmax|exact Hlev|].
      { intros q a Ha. destruct (Ta q a Ha) as [->|(X & _)]; [left; reflexivity|congruence]. }
      left. split; [reflexivity|]. split; [exact El|]. split; [right; exact El|]. rewrite Hcg. split; [|exact Lc].
      split; [reflexivity|]. split; [exact M|]. exists o. split; [exact Cl|reflexivity].
    + left. eapply cost_goto; [reflexivity|]. cbn [rank th_pc]. lia.
Qed.

(** ** Any number of steps *)

Lemma begin_inv max : size_ok max ->
  inv [] (fst (begin_threads (mkWr (mkO [] 0) (new_mgr raw) level) max progs)) (snd (begin_threads (mkWr (mkO [] 0) (new_mgr raw) level) max progs)).
Proof.
  intros Hm. unfold begin_threads. cbn [fst snd wr_o wr_mgr wr_level]. split.
  - apply map_length.
  - constructor.
  - constructor.
  - intros t p th Hp Ht. rewrite nth_error_map, Hp in Ht. injection Ht as <-. split; [reflexivity|]. split; [reflexivity|]. split; [exact Logic.I|]. split; [intros o a []|discriminate].
  - discriminate.
  - intros _. left. split; [exists (mkWr (mkO [] 0) (new_mgr raw) 0); split; [reflexivity|split; reflexivity]|]. destruct HP as (_ & _ & _ & H).
    replace (all_closes (map (fun p => mkTh PStart p []) progs)) with (closes (concat progs)); [exact H|].
    unfold all_closes, closes. clear. induction progs as [|p l IH]; [reflexivity|]. cbn [concat map sum_of]. rewrite filter_app, app_length, IH. reflexivity.
  - exact Hm.
  - left. reflexivity.
Qed.

Lemma all_step_inv log sh ths t : inv log sh ths -> exists log' sh' ths', all_step comp t (sh, ths) = Ok (sh', ths') /\ inv log' sh' ths' /\
  ((total_cost ths' < total_cost ths)%nat \/ sh' = sh /\ ths' = ths /\ forall th, nth_error ths t = Some th -> blocked sh th).
Proof.
  intros I. unfold all_step. cbn [fst snd]. destruct (nth_error ths t) as [th|] eqn:Et.
  - destruct (nth_error progs t) as [p|] eqn:Ep.
    + destruct (step_inv log sh ths t p th I Ep Et) as (log' & sh' & th' & E & I' & H). rewrite E. cbn [bind]. exists log', sh', (update ths t th'). split; [reflexivity|]. split; [exact I'|].
      destruct H as [H|(-> & -> & B)]; [left; unfold total_cost; pose proof (sum_update cost ths t th' th Et); lia|]. right. split; [reflexivity|]. split; [exact (update_id _ _ _ Et)|].
      intros th2 E2. injection E2 as <-. exact B.
    + exfalso. apply nth_error_None in Ep. assert (t < length ths)%nat by (apply nth_error_Some; congruence). rewrite (i_len _ _ _ _ _ _ _ _ _ I) in *. lia.
  - exists log, sh, ths. split; [reflexivity|]. split; [exact I|]. right. split; [reflexivity|]. split; [reflexivity|discriminate].
Qed.
Lemma run_inv sched : forall log sh ths, inv log sh ths -> exists log' sh' ths', run_threads comp sched (sh, ths) = Ok (sh', ths') /\ inv log' sh' ths' /\ ((total_cost ths' < total_cost ths)%nat \/ sh' = sh /\ ths' = ths /\ forall t th, In t sched -> nth_error ths t = Some th -> blocked sh th).
Proof.
  induction sched as [|t sched IH]; intros log sh ths I; cbn [run_threads].
  - exists log, sh, ths. split; [reflexivity|]. split; [exact I|]. right. split; [reflexivity|]. split; [reflexivity|intros t th []].
  - destruct (all_step_inv log sh ths t I) as (log1 & sh1 & ths1 & E & I1 & H1). rewrite E. cbn [bind].
    destruct (IH log1 sh1 ths1 I1) as (log2 & sh2 & ths2 & E2 & I2 & H2). exists log2, sh2, ths2. split; [exact E2|]. split; [exact I2|].
    destruct H1 as [H1|(-> & -> & B1)], H2 as [H2|(-> & -> & B2)]; try (left; lia). right. split; [reflexivity|]. split; [reflexivity|].
    intros u th [<-|Hu] Hth; [exact (B1 th Hth)|exact (B2 u th Hu Hth)].
Qed.

(** ** Termination *)

Lemma phase_todo log sh c th : phase log sh c th -> th_todo th <> [].
Proof. unfold ThreadInv.phase. intros H E. rewrite E in H. destruct (th_pc th) as [| | | | | | | | |[]| | |]; exact H. Qed.
Lemma not_all_blocked log sh ths : inv log sh ths -> (forall t th, nth_error ths t = Some th -> blocked sh th) -> Forall ended ths.
Proof.
  intros I B. apply Forall_forall. intros th Hin. apply In_nth_error in Hin. destruct Hin as (t & Ht). destruct (B t th Ht) as [E|[L _]]; [exact E|].
  exfalso. destruct (sh_lock sh) as [u|] eqn:El; [|congruence]. destruct (i_held _ _ _ _ _ _ _ _ _ I u El) as (thu & Hu & K & P).
  destruct (B u thu Hu) as [E|[_ K2]]; [exact (phase_todo _ _ _ _ P E)|congruence].
Qed.
Lemma ended_cost ths : Forall ended ths -> total_cost ths = 0%nat.
Proof. unfold total_cost. induction 1 as [|th ths E F IH]; [reflexivity|]. cbn [sum_of]. rewrite IH. unfold cost. rewrite E. reflexivity. Qed.
Lemma rounds_end blks : forall log sh ths, inv log sh ths -> Forall (round (length progs)) blks -> (total_cost ths <= length blks)%nat ->
  exists log' sh' ths', run_threads comp (concat blks) (sh, ths) = Ok (sh', ths') /\ inv log' sh' ths' /\ (blks <> [] -> Forall ended ths').
Proof.
  induction blks as [|b blks IH]; intros log sh ths I F L; cbn [concat].
  - exists log, sh, ths. split; [reflexivity|]. split; [exact I|congruence].
  - inversion F as [|x y Hb F']; subst. destruct (run_inv b log sh ths I) as (log1 & sh1 & ths1 & E1 & I1 & H1).
    assert (Eapp : forall l st, run_threads comp (b ++ l) st = (do st' <- run_threads comp b st; run_threads comp l st')).
    { clear. intros l. induction b as [|t b IH]; intros st; [reflexivity|]. cbn [app run_threads]. destruct (all_step comp t st); cbn [bind]; [apply IH|reflexivity|reflexivity]. }
    rewrite Eapp, E1. cbn [bind].
    assert (D : (total_cost ths1 < total_cost ths)%nat \/ (Forall ended ths1)).
    { destruct H1 as [H1|(-> & -> & B)]; [left; exact H1|]. right. eapply not_all_blocked; [exact I|]. intros t th Ht. apply (B t th); [|exact Ht]. apply Hb.
      rewrite <- (i_len _ _ _ _ _ _ _ _ _ I). apply nth_error_Some. congruence. }
    assert (L1 : (total_cost ths1 <= length blks)%nat). { destruct D as [D|D]; [cbn [length] in L; lia|rewrite (ended_cost _ D); lia]. }
    destruct (IH log1 sh1 ths1 I1 F' L1) as (log2 & sh2 & ths2 & E2 & I2 & H2). exists log2, sh2, ths2. split; [exact E2|]. split; [exact I2|]. intros _.
    destruct blks as [|b' blks']; [|apply H2; discriminate]. cbn [concat run_threads] in E2. injection E2 as <- <-. destruct D as [D|D]; [|exact D].
    cbn [length] in L1. eapply not_all_blocked; [exact I1|]. intros t th Ht. left. assert (cost th = 0)%nat as Z. { pose proof (sum_member cost ths1 t th Ht). unfold total_cost in L1. lia. }
    unfold cost in Z. pose proof (rank_small (th_pc th)). destruct (th_todo th); [reflexivity|]. cbn [length] in Z. lia.
Qed.

(** ** The outcome *)

Lemma free_pending log sh ths t p th : inv log sh ths -> sh_lock sh = None -> nth_error progs t = Some p -> nth_error ths t = Some th -> pending th = [].
Proof.
  intros I El Hp Ht. destruct (i_th _ _ _ _ _ _ _ _ _ I t p th Hp Ht) as (_ & _ & _ & _ & K). unfold pending. destruct (th_pc th) eqn:E; try reflexivity; exfalso; specialize (K eq_refl); congruence.
Qed.
Lemma outcome log sh ths : inv log sh ths -> sh_lock sh = None ->
  threads_ok progs log (match sh_out sh with Some _ => true | None => false end) ths /\ Forall (fun x => label_ok zs (fst (snd x))) log /\
  file_ok C b1 b2 raw sh (map snd log) /\ group_ok C b1 b2 (map snd log).
Proof.
  intros I El. split; [|split; [exact (i_labels _ _ _ _ _ _ _ _ _ I)|split; [|exact (group_log comp uncomp b1 b2 raw HC U1 U2 level progs HP _ _ _ I)]]].
  - split; [exact (i_len _ _ _ _ _ _ _ _ _ I)|]. split; [exact (i_tids _ _ _ _ _ _ _ _ _ I)|]. intros t p th Hp Ht.
    destruct (i_th _ _ _ _ _ _ _ _ _ I t p th Hp Ht) as (A & B & _ & D & _). split; [exact A|]. split.
    + rewrite B. unfold committed. rewrite (free_pending _ _ _ _ _ _ I El Hp Ht), app_nil_r. reflexivity.
    + intros o a Ha. destruct (D o a Ha) as [->|(X & Y)]; [left; reflexivity|]. right. rewrite X. split; [reflexivity|exact Y].
  - unfold file_ok. destruct (log_written comp uncomp b1 b2 raw HC U1 U2 Ur level progs HP _ _ _ I) as (w & g & o & W & A & N).
    destruct (i_free _ _ _ _ _ _ _ _ _ I El) as [[(w' & W' & O & M) _]|[(O & M & o' & (w' & g' & W' & A') & Ef) _]]; rewrite O; unfold wrote in W, W'; rewrite W in W'; injection W' as <-.
    + destruct (group_log comp uncomp b1 b2 raw HC U1 U2 level progs HP _ _ _ I) as (F & _).
      destruct (write_items_spec C uncomp [] [] b1 b2 (items log) (codec_labelled _ _ HC) U1 U2 F (mkWr (mkO [] 0) (new_mgr raw) 0) [] (o_state_start _ _)) as (w1 & lr & ss & E1 & _ & _ & _ & E5 & [E6 E7] & E8).
      rewrite W in E1. injection E1 as <-. pose proof (text_concat C _ _ _ _ E5) as Et. cbn [app] in E6, E7. rewrite skipn_nil, app_nil_r in E6.
      split; [|exists (wr_mgr w); split; [exact M|rewrite E8; reflexivity]]. fold (items log). rewrite Et. destruct (wr_o w) as [d q]. cbn [o_data o_pos] in *. rewrite E6, E7. reflexivity.
    + split; [exact M|]. rewrite A in A'. injection A' as <- <-. rewrite Ef. exact N.
Qed.
Lemma ended_free log sh ths : inv log sh ths -> Forall ended ths -> sh_lock sh = None.
Proof.
  intros I F. destruct (sh_lock sh) as [t|] eqn:El; [|reflexivity]. destruct (i_held _ _ _ _ _ _ _ _ _ I t El) as (th & Ht & _ & P). exfalso. apply (phase_todo _ _ _ _ P).
  rewrite Forall_forall in F. apply F. eapply nth_error_In. exact Ht.
Qed.

(** a thread that has come to its end without closing has written everything *)
Lemma ended_written th : ended th -> (forall o a, In (o, a) (th_done th) -> a = TDone) -> written_by th = writes (map fst (th_done th)).
Proof.
  intros _ H. unfold written_by, writes. induction (th_done th) as [|[o a] l IH]; [reflexivity|]. cbn [flat_map map fst]. rewrite IH by (intros x y Hy; apply (H x y); right; exact Hy).
  rewrite (H o a (or_introl eq_refl)). reflexivity.
Qed.
Lemma all_written log ths open : threads_ok progs log open ths -> Forall ended ths -> (forall th o a, In th ths -> In (o, a) (th_done th) -> a = TDone) ->
  (forall t p, nth_error progs t = Some p -> of_thread t log = writes p) /\ Permutation (map (fun x => snd (snd x)) log) (flat_map writes progs).
Proof.
  intros (L & F & H) E HD.
  assert (G : forall t p, nth_error progs t = Some p -> of_thread t log = writes p).
  { intros t p Hp. destruct (nth_error ths t) as [th|] eqn:Et.
    - destruct (H t p th Hp Et) as (A & B & D). rewrite B, ended_written.
      + rewrite Forall_forall in E. specialize (E th (nth_error_In _ _ Et)). unfold ended in E. rewrite E, app_nil_r in A. rewrite A. reflexivity.
      + rewrite Forall_forall in E. exact (E th (nth_error_In _ _ Et)).
      + intros o a Ha. exact (HD th o a (nth_error_In _ _ Et) Ha).
    - exfalso. apply nth_error_None in Et. assert (t < length progs)%nat by (apply nth_error_Some; congruence). lia. }
  split; [exact G|]. rewrite flat_map_concat_map. apply log_perm.
  - rewrite map_length. exact F.
  - intros t l Hl. rewrite nth_error_map in Hl. destruct (nth_error progs t) as [p|] eqn:Ep; [|discriminate]. injection Hl as <-. exact (G t p Ep).
Qed.


(** ** From the beginning *)

Notation begin max := (begin_threads (mkWr (mkO [] 0) (new_mgr raw) level) max progs).
Lemma interleaving max sched : 0 < max < two32 -> exists sh ths, run_threads comp sched (begin max) = Ok (sh, ths) /\
  (Forall ended ths -> sh_lock sh = None) /\
  (sh_lock sh = None -> exists log, threads_ok progs log (match sh_out sh with Some _ => true | None => false end) ths /\
    Forall (fun x => label_ok zs (fst (snd x))) log /\ file_ok C b1 b2 raw sh (map snd log) /\ group_ok C b1 b2 (map snd log)).
Proof.
  intros Hm. destruct (run_inv sched _ _ _ (begin_inv max Hm)) as (log & sh & ths & E & I & _). exists sh, ths. split; [exact E|].
  split; [intros F; exact (ended_free _ _ _ I F)|]. intros El. exists log. exact (outcome _ _ _ I El).
Qed.
Lemma begin_cost max : total_cost (snd (begin max)) = (20 * length (concat progs))%nat.
Proof.
  unfold begin_threads, total_cost. cbn [snd]. clear. induction progs as [|p l IH]; [reflexivity|]. cbn [map sum_of concat]. rewrite IH, app_length. unfold cost. cbn [th_todo th_pc rank]. lia.
Qed.
Lemma fair_end max blks : 0 < max < two32 -> Forall (round (length progs)) blks -> (20 * length (concat progs) < length blks)%nat ->
  exists sh ths, run_threads comp (concat blks) (begin max) = Ok (sh, ths) /\ Forall ended ths.
Proof.
  intros Hm F L. destruct (rounds_end blks _ _ _ (begin_inv max Hm) F) as (log & sh & ths & E & _ & H); [rewrite begin_cost; lia|].
  exists sh, ths. split; [exact E|]. apply H. intros ->. cbn in L. lia.
Qed.

(** a closed file *)
Lemma closed_file sh (log : list entry) d name : sh_out sh = None -> file_ok C b1 b2 raw sh (map snd log) -> group_ok C b1 b2 (map snd log) -> log <> [] ->
  d (sio_filename name) = Some (sh_file sh) -> wf_ok C uncomp d (mkWF (sio_filename name) (mkSess 0 raw b1 b2 (map snd log)) []).
Proof.
  intros O F (G1 & G2 & G3 & G4) Hne Hd. unfold file_ok in F. rewrite O in F. destruct F as [_ F]. split; cbn [wf_sess wf_first wf_more wf_name].
  - split; [apply Forall_cons; [|apply Forall_nil]; split; [exact Ur|split; [exact U1|split; [exact U2|split; [exact G1|exact G2]]]]|].
    split; [cbn [ss_items]; destruct log; [congruence|discriminate]|]. split.
    + change (Zlen (map snd log) + 0 < 2 ^ 27). lia.
    + change (size_of C b1 b2 (map snd log) + 0 < 2 ^ 61). lia.
  - exists d, (save d (sio_filename name) (sh_file sh)), name. split; [reflexivity|]. split.
    + unfold sessions. rewrite F. reflexivity.
    + rewrite save_same. exact Hd.
Qed.
Lemma read_closed srt ignore_null max sched sh ths d name ops tags rraw cbuf mraw next : 0 < max < two32 ->
  run_threads comp sched (begin max) = Ok (sh, ths) -> sh_lock sh = None -> sh_out sh = None -> d (sio_filename name) = Some (sh_file sh) ->
  Forall (readable ignore_null tags) (flat_map writes progs) -> 0 < next ->
  exists log, threads_ok progs log false ths /\
    (log <> [] -> wf_ok C uncomp d (mkWF (sio_filename name) (mkSess 0 raw b1 b2 (map snd log)) []) /\
      trace srt tags at_null next (map (fun x => (sio_filename name, snd (snd x))) log) ops
        (read_all uncomp srt ignore_null d [sio_filename name] ops (new_reader false false tags rraw cbuf mraw next))).
Proof.
  intros Hm E El O Hd HR Hn. destruct (run_inv sched _ _ _ (begin_inv max Hm)) as (log & sh' & ths' & E' & I & _).
  assert (EE : Ok (sh, ths) = Ok (sh', ths')) by (rewrite <- E; exact E'). injection EE as <- <-.
  destruct (outcome _ _ _ I El) as (T & _ & F & G). rewrite O in T. exists log. split; [exact T|]. intros Hne.
  pose proof (closed_file sh log d name O F G Hne Hd) as WF. split; [exact WF|].
  replace (map (fun x => (sio_filename name, snd (snd x))) log) with (flat_map wf_items [mkWF (sio_filename name) (mkSess 0 raw b1 b2 (map snd log)) []]).
  2:{ cbn [flat_map wf_items wf_sess wf_first wf_more items_of ss_items wf_name]. unfold wf_items, items_of. cbn [wf_sess wf_first wf_more flat_map ss_items wf_name]. rewrite !app_nil_r, !map_map. reflexivity. }
  change [sio_filename name] with (map wf_name [mkWF (sio_filename name) (mkSess 0 raw b1 b2 (map snd log)) []]).
  apply (read_sequential C uncomp srt ignore_null); [exact (codec_labelled _ _ HC)|discriminate|apply Forall_cons; [exact WF|apply Forall_nil]|discriminate| |exact Hn].
  cbn [flat_map]. rewrite app_nil_r. unfold wf_items, items_of. cbn [wf_sess wf_first wf_more flat_map ss_items wf_name]. rewrite app_nil_r. apply Forall_map. cbn [snd].
  destruct (log_items comp b1 b2 raw level progs _ _ _ I) as (l & P). apply Forall_forall. intros i Hi. rewrite Forall_forall in HR. apply HR.
  eapply Permutation_in; [symmetry; exact P|]. apply in_or_app. left. rewrite map_map in Hi. exact Hi.
Qed.

End Run.
