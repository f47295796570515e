(** * Endpoints, end vertices, closest track states: proofs *)
From Coq Require Import ZArith List Bool Lia.
From Verif Require Import Bytes Ieee SioModel SioSpec ObjModel ObjSpec ImplModel DerivModel DerivSpec EventModel CollSpec EventSpec EventFacts AttrProofs.
Import ListNotations.
Open Scope Z_scope.

Lemma end_by_daughters_iff h own ds v : end_by_daughters h own ds = Ok v <->
  (exists l1 d l2 md, ds = l1 ++ d :: l2 /\ (forall x, In x l1 -> exists mx, h x = Some (OMC mx) /\ ~ at_endpoint mx) /\
     h d = Some (OMC md) /\ at_endpoint md /\ v = mc_vertex md) \/
  ((forall x, In x ds -> exists mx, h x = Some (OMC mx) /\ ~ at_endpoint mx) /\ v = own).
Proof.
  unfold at_endpoint. induction ds as [|d ds IH]; cbn [end_by_daughters].
  - split.
    + intros H. injection H as <-. right. split; [intros x []|reflexivity].
    + intros [(l1 & d & l2 & md & E & _)|[_ ->]]; [destruct l1; discriminate E|reflexivity].
  - split.
    + intros H. destruct (h d) as [[]|] eqn:Hd; try discriminate H. destruct (Z.testbit (mc_sim o) 28) eqn:B.
      * apply IH in H. destruct H as [(l1 & d' & l2 & md & -> & P & Hd' & B' & ->)|[P ->]].
        -- left. exists (d :: l1), d', l2, md. split; [reflexivity|]. split; [|auto].
           intros x [<-|Hx]; [exists o; split; [exact Hd|rewrite B; discriminate]|auto].
        -- right. split; [|reflexivity]. intros x [<-|Hx]; [exists o; split; [exact Hd|rewrite B; discriminate]|auto].
      * injection H as <-. left. exists [], d, ds, o. split; [reflexivity|]. split; [intros x []|]. auto.
    + intros [(l1 & d' & l2 & md & E & P & Hd' & B' & ->)|[P ->]].
      * destruct l1 as [|x l1]; cbn [app] in E.
        -- injection E as -> ->. rewrite Hd', B'. reflexivity.
        -- injection E as -> ->. destruct (P x (or_introl eq_refl)) as (mx & Hx & Bx). rewrite Hx. apply not_false_is_true in Bx. rewrite Bx.
           apply IH. left. exists l1, d', l2, md. split; [reflexivity|]. split; [intros y Hy; apply P; right; exact Hy|]. auto.
      * destruct (P d (or_introl eq_refl)) as (mx & Hx & Bx). rewrite Hx. apply not_false_is_true in Bx. rewrite Bx.
        apply IH. right. split; [intros y Hy; apply P; right; exact Hy|reflexivity].
Qed.
Lemma endpoint_iff h m v : get_endpoint h m = Ok v <-> endpoint_is h m v.
Proof.
  unfold get_endpoint. split.
  - destruct (Z.testbit (mc_sim m) 31) eqn:B.
    + intros H. injection H as <-. apply EP_own. exact B.
    + assert (NB : ~ endpoint_set m) by (unfold endpoint_set; rewrite B; discriminate).
      intros H. assert (H' : end_by_daughters h (mc_endpoint m) (mc_daughters m) = Ok v) by (destruct (mc_daughters m); exact H).
      apply end_by_daughters_iff in H'. destruct H' as [(l1 & d & l2 & md & E & P & Hd & A & ->)|[P ->]].
      * exact (EP_first h m l1 d l2 md NB E P Hd A).
      * exact (EP_none h m NB P).
  - assert (G : ~ endpoint_set m -> forall w, end_by_daughters h (mc_endpoint m) (mc_daughters m) = Ok w ->
      (if Z.testbit (mc_sim m) 31 then Ok (mc_endpoint m) else match mc_daughters m with [] => Ok (mc_endpoint m) | _ => end_by_daughters h (mc_endpoint m) (mc_daughters m) end) = Ok w).
    { intros N w H. unfold endpoint_set in N. destruct (Z.testbit (mc_sim m) 31); [exfalso; apply N; reflexivity|]. destruct (mc_daughters m); exact H. }
    intros H. destruct H as [B|l1 d l2 md N E P Hd A|N P].
    + unfold endpoint_set in B. rewrite B. reflexivity.
    + apply G; [exact N|]. apply end_by_daughters_iff. left. exists l1, d, l2, md. auto.
    + apply G; [exact N|]. apply end_by_daughters_iff. right. auto.
Qed.
Lemma endpoint_total h m : (forall d, In d (mc_daughters m) -> exists md, h d = Some (OMC md)) -> exists v, get_endpoint h m = Ok v.
Proof.
  intros H. unfold get_endpoint. destruct (Z.testbit (mc_sim m) 31); [eauto|].
  assert (G : exists v, end_by_daughters h (mc_endpoint m) (mc_daughters m) = Ok v).
  { induction (mc_daughters m) as [|d l IH]; cbn [end_by_daughters]; [eauto|].
    destruct (H d (or_introl eq_refl)) as [md ->]. destruct (Z.testbit (mc_sim md) 28); [|eauto]. apply IH. intros x Hx. apply H. right. exact Hx. }
  destruct (mc_daughters m); [eauto|exact G].
Qed.

(** ** after writing and reading *)
Lemma stored_endpoint srt ignore_null only names h e buf1 buf2 new next :
  event_ok only h e -> event_fits only h e -> usable buf1 -> usable buf2 ->
  0 < next -> numbers new (event_objs only names h e) next -> mc_links_ok h (read_back only names e) ->
  ignore_null = true \/ subsets_ok h (event_tags only names h e) (read_back only names e) ->
  let cols := read_back only names e in
  exists e' h', store_read srt ignore_null only names h e buf1 buf2 next = Ok (e', h', next + Zlen (event_objs only names h e)) /\
    forall nc a m, In nc cols -> is_mc (snd nc) = true -> In a (c_elems (snd nc)) -> h a = Some (OMC m) ->
      mc_daughters m = daughters_of h cols a -> endpoint_set m \/ mc_endpoint m = [0; 0; 0] ->
      exists m', h' (new a) = Some (OMC m') /\ mc_daughters m' = map new (mc_daughters m) /\ get_endpoint h' m' = get_endpoint h m.
Proof.
  intros Ok_ F U1 U2 N Num L Sub cols.
  destruct (store_read_spec srt ignore_null only names h e buf1 buf2 new next Ok_ F U1 U2 N Num L Sub) as (e' & h' & E & _ & _ & R).
  exists e', h'. split; [exact E|]. set (tgt := target new (event_tags only names h e)) in *. fold cols in R.
  assert (C : forall nc a m, In nc cols -> is_mc (snd nc) = true -> In a (c_elems (snd nc)) -> h a = Some (OMC m) ->
    h' (new a) = Some (more (map new (daughters_of h cols a)) (OMC (map_refs_mcp tgt (stored_mcp m))))).
  { intros nc a m Hn Hm Ha Hh. unfold is_mc in Hm. apply andb_true_iff in Hm. destruct Hm as [Ht Hs]. apply negb_true_iff in Hs.
    rewrite (R nc a _ Hn Hs Ha Hh). unfold copy_in. apply bytes_eqb_eq in Ht. rewrite Ht.
    change (get_handler (str "MCParticle")) with (Some TMC). reflexivity. }
  intros nc a m Hn Hm Ha Hh D K. eexists. split; [exact (C nc a m Hn Hm Ha Hh)|].
  split; [cbn [mc_daughters map_refs_mcp stored_mcp map app]; rewrite D; reflexivity|].
  unfold get_endpoint. cbn [mc_sim mc_endpoint mc_daughters map_refs_mcp stored_mcp map app].
  destruct (Z.testbit (mc_sim m) 31) eqn:B; [reflexivity|].
  assert (Z0 : mc_endpoint m = [0; 0; 0]) by (destruct K as [K|K]; [unfold endpoint_set in K; rewrite B in K; discriminate K|exact K]).
  rewrite D, Z0. cbn [kept].
  assert (G : forall ds, (forall d, In d ds -> In d (daughters_of h cols a)) ->
    end_by_daughters h' [0; 0; 0] (map new ds) = end_by_daughters h [0; 0; 0] ds).
  { induction ds as [|d ds IH]; intros S; [reflexivity|]. cbn [map end_by_daughters].
    assert (HD := S d (or_introl eq_refl)). unfold daughters_of in HD. apply in_flat_map in HD. destruct HD as (nc' & Hn' & HD).
    destruct (is_mc (snd nc')) eqn:M'; [|destruct HD]. apply in_flat_map in HD. destruct HD as (d' & Hd' & HD).
    assert (d = d') by (apply repeat_spec in HD; exact HD). subst d'.
    assert (PN : parents h d <> []). { intros Z. rewrite Z in HD. destruct HD. }
    unfold parents in PN. destruct (h d) as [[md| | | | | | | | | | | | | | | | | | | |]|] eqn:Hd; try (exfalso; apply PN; reflexivity).
    rewrite (C nc' d md Hn' M' Hd' Hd). cbn [more mc_sim mc_vertex map_refs_mcp stored_mcp].
    destruct (Z.testbit (mc_sim md) 28); [|reflexivity]. apply IH. intros x Hx. apply S. right. exact Hx. }
  destruct (daughters_of h cols a) as [|d ds] eqn:Q; [reflexivity|]. exact (G (d :: ds) (fun x H => H)).
Qed.

Lemma stored_end_vertex srt ignore_null only names h e buf1 buf2 new next :
  event_ok only h e -> event_fits only h e -> usable buf1 -> usable buf2 ->
  0 < next -> numbers new (event_objs only names h e) next -> mc_links_ok h (read_back only names e) ->
  ignore_null = true \/ subsets_ok h (event_tags only names h e) (read_back only names e) ->
  let cols := read_back only names e in
  let tgt := target new (event_tags only names h e) in
  let is_rp nc := In nc cols /\ c_type (snd nc) = str "ReconstructedParticle" /\ is_subset (snd nc) = false in
  exists e' h', store_read srt ignore_null only names h e buf1 buf2 next = Ok (e', h', next + Zlen (event_objs only names h e)) /\
    forall nc a o, is_rp nc -> In a (c_elems (snd nc)) -> h a = Some (ORP o) ->
      exists o', h' (new a) = Some (ORP o') /\
        (rp_parts o = [] -> get_end_vertex h' o' = Ok 0) /\
        (forall p r nc' q, rp_parts o = p :: r -> p <> 0 -> is_rp nc' -> In p (c_elems (snd nc')) -> h p = Some (ORP q) ->
           get_end_vertex h o = Ok (rp_sv q) /\ get_end_vertex h' o' = Ok (tgt (rp_sv q))).
Proof.
  intros Ok_ F U1 U2 N Num L Sub cols tgt is_rp.
  destruct (store_read_spec srt ignore_null only names h e buf1 buf2 new next Ok_ F U1 U2 N Num L Sub) as (e' & h' & E & _ & _ & R).
  exists e', h'. split; [exact E|]. fold tgt in R. fold cols in R.
  assert (C : forall nc a o, is_rp nc -> In a (c_elems (snd nc)) -> h a = Some (ORP o) ->
    exists o', h' (new a) = Some (ORP o') /\ rp_parts o' = map tgt (rp_parts o) /\ rp_sv o' = tgt (rp_sv o)).
  { intros nc a o (Hn & Ht & Hs) Ha Hh. rewrite (R nc a _ Hn Hs Ha Hh). unfold copy_in. rewrite Ht.
    change (get_handler (str "ReconstructedParticle")) with (Some TRP). eexists. split; [reflexivity|]. split; reflexivity. }
  intros nc a o I Ha Hh. destruct (C nc a o I Ha Hh) as (o' & H1 & H2 & _). exists o'. split; [exact H1|]. split.
  - intros P. unfold get_end_vertex. rewrite H2, P. reflexivity.
  - intros p r nc' q P Pn I' Hp Hq. unfold get_end_vertex. rewrite P, Hq, H2, P. split; [reflexivity|]. cbn [map].
    assert (T : tgt p = new p).
    { unfold tgt, target. destruct (Z.eqb_spec p 0) as [Z|Z]; [exfalso; exact (Pn Z)|].
      destruct (in_dec Z.eq_dec p (event_tags only names h e)) as [I2|I2]; [reflexivity|]. exfalso. apply I2.
      destruct I' as (Hn' & Ht' & Hs'). unfold event_tags. apply in_flat_map. exists nc'. split; [exact Hn'|].
      unfold coll_tags. rewrite Hs'. apply in_flat_map. exists p. split; [exact Hp|]. rewrite Hq. apply in_or_app. right. left. reflexivity. }
    rewrite T. destruct (C nc' p q I' Hp Hq) as (q' & -> & _ & S'). rewrite S'. reflexivity.
Qed.

(** ** the closest state *)
Lemma f_gt_val a b : f_nan a = false -> f_nan b = false -> f_gt a b = (f_val b <? f_val a).
Proof. intros A B. unfold f_gt. rewrite A, B. reflexivity. Qed.
Lemma closest_first dist : forall l pre best t, (forall s, In s (pre ++ l) -> f_nan (dist s) = false) ->
  nth_error pre best = Some t -> (forall s, In s pre -> f_val (dist t) <= f_val (dist s)) ->
  (forall j s, (j < best)%nat -> nth_error pre j = Some s -> f_val (dist t) < f_val (dist s)) ->
  first_closest dist (pre ++ l) (closest_of dist best (dist t) (length pre) l).
Proof.
  induction l as [|x l IH]; intros pre best t N B M SM; cbn [closest_of].
  - rewrite app_nil_r. exists t. auto.
  - assert (Nt : f_nan (dist t) = false) by (apply N, in_or_app; left; exact (nth_error_In _ _ B)).
    assert (Nx : f_nan (dist x) = false) by (apply N, in_or_app; right; left; reflexivity).
    rewrite (f_gt_val _ _ Nt Nx). replace (S (length pre)) with (length (pre ++ [x])) by (rewrite app_length; cbn; lia).
    replace (pre ++ x :: l) with ((pre ++ [x]) ++ l) in * by (rewrite <- app_assoc; reflexivity).
    destruct (Z.ltb_spec (f_val (dist x)) (f_val (dist t))) as [L|L].
    + apply IH; [exact N|rewrite nth_error_app2, Nat.sub_diag by lia; reflexivity| |].
      * intros s Hs. apply in_app_or in Hs. destruct Hs as [Hs|[<-|[]]]; [|lia]. specialize (M s Hs). lia.
      * intros j s Hj Hs. rewrite nth_error_app1 in Hs by exact Hj. specialize (M s (nth_error_In _ _ Hs)). lia.
    + assert (LB : (best < length pre)%nat) by (apply nth_error_Some; rewrite B; discriminate).
      apply IH; [exact N|rewrite nth_error_app1 by exact LB; exact B| |].
      * intros s Hs. apply in_app_or in Hs. destruct Hs as [Hs|[<-|[]]]; [exact (M s Hs)|lia].
      * intros j s Hj Hs. rewrite nth_error_app1 in Hs by lia. exact (SM j s Hj Hs).
Qed.
Lemma closest_ok dist l : l <> [] -> (forall s, In s l -> f_nan (dist s) = false) -> exists i, get_closest dist l = Ok i /\ first_closest dist l i.
Proof.
  destruct l as [|t l]; intros NE N; [exfalso; apply NE; reflexivity|]. eexists. split; [reflexivity|].
  change (t :: l) with ([t] ++ l) in *. apply (closest_first dist l [t] 0%nat t N eq_refl).
  - intros s [<-|[]]. lia.
  - intros j s Hj. lia.
Qed.

(** ** particle ids and track states *)
Lemma last_val_run {O C V} (do1 : bool -> O -> C -> O * Res unit) (get : O -> V) (arg : C -> option V) (okc : bool * C -> Prop) (inv : O -> Prop) :
  (forall ro o c, okc (ro, c) -> inv o -> inv (fst (do1 ro o c)) /\ get (fst (do1 ro o c)) = (if ro then get o else match arg c with Some v => v | None => get o end)) ->
  forall cs o, Forall okc cs -> inv o -> get (fold_left (fun x c => fst (do1 (fst c) x (snd c))) cs o) = last_val arg (get o) cs.
Proof.
  intros H. induction cs as [|[ro c] cs IH]; intros o F Io; [reflexivity|]. inversion F as [|? ? F1 F2]; subst.
  cbn [fold_left last_val fst snd]. destruct (H ro o c F1 Io) as [I2 E]. rewrite (IH _ F2 I2), E. reflexivity.
Qed.
Lemma pid_ok cs : pi_type (pid_run new_pid cs) = last_val pid_type 0 cs /\ pi_pdg (pid_run new_pid cs) = last_val pid_pdg 0 cs /\
  pi_like (pid_run new_pid cs) = last_val pid_like 0 cs /\ pi_alg (pid_run new_pid cs) = last_val pid_alg 0 cs /\
  pi_par (pid_run new_pid cs) = pid_added cs.
Proof.
  assert (T : Forall (fun _ : bool * pid_call => True) cs) by (apply Forall_forall; auto).
  unfold pid_run. split; [|split; [|split; [|split]]].
  - apply (last_val_run pid_do pi_type pid_type (fun _ => True) (fun _ => True)); auto. intros [|] o [] _ _; split; auto.
  - apply (last_val_run pid_do pi_pdg pid_pdg (fun _ => True) (fun _ => True)); auto. intros [|] o [] _ _; split; auto.
  - apply (last_val_run pid_do pi_like pid_like (fun _ => True) (fun _ => True)); auto. intros [|] o [] _ _; split; auto.
  - apply (last_val_run pid_do pi_alg pid_alg (fun _ => True) (fun _ => True)); auto. intros [|] o [] _ _; split; auto.
  - clear T. assert (G : forall o, pi_par (fold_left (fun x c => fst (pid_do (fst c) x (snd c))) cs o) = pi_par o ++ pid_added cs).
    { unfold pid_added. induction cs as [|[ro c] cs IH]; intros o; [cbn; rewrite app_nil_r; reflexivity|].
      cbn [fold_left flat_map fst snd]. rewrite IH. destruct ro, c; cbn [pid_do guarded unguarded fst pi_par app]; try reflexivity.
      rewrite <- app_assoc. reflexivity. }
    apply (G new_pid).
Qed.
Lemma arr_enough n v : (n <= length v)%nat -> arr n v = Ok (firstn n v).
Proof. intros H. unfold arr. rewrite (proj2 (Nat.leb_le _ _) H). reflexivity. Qed.
Lemma ts_ok cs : Forall ts_arg_ok cs -> let o := ts_run new_tstate cs in
  ts_loc o = last_val ts_loc_of 0 cs /\ ts_d0 o = last_val ts_d0_of 0 cs /\ ts_phi o = last_val ts_phi_of 0 cs /\
  ts_omega o = last_val ts_omega_of 0 cs /\ ts_z0 o = last_val ts_z0_of 0 cs /\ ts_tanl o = last_val ts_tanl_of 0 cs /\
  ts_cov o = last_val ts_cov_of (repeat 0 15) cs /\ ts_ref o = last_val ts_ref_of [0; 0; 0] cs.
Proof.
  intros F o. subst o. unfold ts_run.
  assert (ST : forall ro o c, ts_arg_ok (ro, c) -> length (ts_cov o) = 15%nat ->
    fst (ts_do ro o c) = if ro then o else
      mkTS (match ts_loc_of c with Some v => v | None => ts_loc o end) (match ts_d0_of c with Some v => v | None => ts_d0 o end)
           (match ts_phi_of c with Some v => v | None => ts_phi o end) (match ts_omega_of c with Some v => v | None => ts_omega o end)
           (match ts_z0_of c with Some v => v | None => ts_z0 o end) (match ts_tanl_of c with Some v => v | None => ts_tanl o end)
           (match ts_cov_of c with Some v => v | None => ts_cov o end) (match ts_ref_of c with Some v => v | None => ts_ref o end)).
  { intros ro o c A L. destruct ro; [destruct c; reflexivity|].
    destruct c; cbn [ts_arg_ok snd] in A; cbn [ts_do guarded unguarded fst ts_loc_of ts_d0_of ts_phi_of ts_omega_of ts_z0_of ts_tanl_of ts_cov_of ts_ref_of]; try reflexivity.
    - rewrite (arr_enough _ _ A). cbn [bind]. rewrite L. rewrite (skipn_all2 (ts_cov o)) by lia. rewrite app_nil_r. reflexivity.
    - rewrite (arr_enough _ _ A). reflexivity. }
  assert (G : forall V (get : tstate -> V) (arg : ts_call -> option V),
    (forall o c, get (mkTS (match ts_loc_of c with Some v => v | None => ts_loc o end) (match ts_d0_of c with Some v => v | None => ts_d0 o end)
           (match ts_phi_of c with Some v => v | None => ts_phi o end) (match ts_omega_of c with Some v => v | None => ts_omega o end)
           (match ts_z0_of c with Some v => v | None => ts_z0 o end) (match ts_tanl_of c with Some v => v | None => ts_tanl o end)
           (match ts_cov_of c with Some v => v | None => ts_cov o end) (match ts_ref_of c with Some v => v | None => ts_ref o end))
      = match arg c with Some v => v | None => get o end) ->
    get (fold_left (fun x c => fst (ts_do (fst c) x (snd c))) cs new_tstate) = last_val arg (get new_tstate) cs).
  { intros V get arg H. apply (last_val_run ts_do get arg ts_arg_ok (fun o => length (ts_cov o) = 15%nat)); [|exact F|reflexivity].
    intros ro o c A L. rewrite (ST ro o c A L). destruct ro; [auto|]. split; [|apply H].
    cbn [ts_cov]. destruct c; cbn [ts_cov_of]; try exact L. cbn [ts_arg_ok snd] in A. rewrite firstn_length. lia. }
  split; [apply G; reflexivity|]. split; [apply G; reflexivity|]. split; [apply G; reflexivity|]. split; [apply G; reflexivity|].
  split; [apply G; reflexivity|]. split; [apply G; reflexivity|]. split; [apply G; reflexivity|]. apply G; reflexivity.
Qed.

(** ** an endpoint that was not set is zero, as long as the status is not overwritten *)
Definition zero_unless_set (m : mcp) : Prop := endpoint_set m \/ mc_endpoint m = [0; 0; 0].
Lemma kept_set q b v : b <> FlagModel.BEndpoint -> Z.testbit (FlagModel.sim_status (FlagModel.sim_set (FlagModel.bitset_of q) b v)) 31 = Z.testbit q 31.
Proof. intros N. destruct (sim_changed q b v) as [H _]. rewrite (H 31) by lia. destruct b; try reflexivity. exfalso. apply N. reflexivity. Qed.
Lemma mc_zero ro m c : no_status (ro, EMC c) -> zero_unless_set m -> zero_unless_set (fst (mc_do ro m c)).
Proof.
  intros NS Z. assert (G : forall r, (forall o', r = Ok o' -> zero_unless_set o') -> zero_unless_set (fst (guarded ro m r))).
  { intros r H. unfold guarded, unguarded. destruct ro; [exact Z|]. destruct r; [cbn; auto|exact Z|exact Z]. }
  assert (B : forall b v o', b <> FlagModel.BEndpoint -> mc_endpoint o' = mc_endpoint m ->
    mc_sim o' = FlagModel.sim_status (FlagModel.sim_set (FlagModel.bitset_of (mc_sim m)) b v) -> zero_unless_set o').
  { intros b v o' N E1 E2. unfold zero_unless_set, endpoint_set in *. rewrite E1, E2, kept_set by exact N. exact Z. }
  destruct c; cbn [mc_do no_status snd] in *; try (destruct NS; fail);
    try (apply G; intros o' H; first [injection H as <- | apply bind_ok in H; destruct H as (a & _ & H); injection H as <-]; exact Z).
  all: try (match goal with |- context [unguarded] => match goal with |- context [FlagModel.sim_set _ ?bb ?vv] =>
    apply (B bb vv); [discriminate|reflexivity|reflexivity] end end).
  apply G. intros o' H. apply bind_ok in H. destruct H as (a & _ & H). injection H as <-. left. unfold endpoint_set. cbn [mc_sim].
  destruct (sim_changed (mc_sim m) FlagModel.BEndpoint true) as [K _]. assert (R31 : 0 <= 31 < 32) by lia. exact (eq_trans (K 31 R31) eq_refl).
Qed.
Lemma run_zero fadd srt cs : forall m, Forall no_status cs -> zero_unless_set m ->
  exists m', AttrModel.obj_run fadd srt (OMC m) cs = OMC m' /\ zero_unless_set m'.
Proof.
  induction cs as [|[ro e] cs IH]; intros m F Z; [exists m; auto|]. inversion F as [|? ? F1 F2]; subst.
  unfold AttrModel.obj_run. cbn [fold_left fst snd].
  assert (K : exists m1, fst (obj_do fadd srt ro (OMC m) e) = OMC m1 /\ zero_unless_set m1).
  { destruct e; cbn [obj_do]; try (exists m; split; [reflexivity|exact Z]).
    assert (Z1 := mc_zero ro m c F1 Z). destruct (mc_do ro m c) as [m1 r]. exists m1. split; [reflexivity|exact Z1]. }
  destruct K as (m1 & -> & Z1). exact (IH m1 F2 Z1).
Qed.
