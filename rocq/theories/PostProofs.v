(** * Post processing of an event: proofs *)

From Coq Require Import Permutation Sorted.
From Verif Require Import Bytes StrMap SioModel SioProofs SioRecord SioRead SioFrame SioSpec Ieee ObjModel ObjSpec
  ObjProofs ObjCalls CollSpec CollProofs ListFacts EventModel EventSpec EventProofs.

Definition mc_in (h : heap) (a : addr) : Prop := a <> 0 /\ exists m, h a = Some (OMC m).

Lemma mcp_at_in h a m : a <> 0 -> h a = Some (OMC m) -> mcp_at h a = Ok m.
Proof. intros H0 H. unfold mcp_at. replace (a =? 0) with false by lia. rewrite H. reflexivity. Qed.

Lemma more_nil o : more [] o = o.
Proof. destruct o as [m| | | | | | | | | | | | | | | | | | | |]; try reflexivity. cbn. rewrite app_nil_r. destruct m; reflexivity. Qed.
Lemma more_app a b o : more (a ++ b) o = more b (more a o).
Proof. destruct o as [m| | | | | | | | | | | | | | | | | | | |]; try reflexivity. cbn. rewrite app_assoc. reflexivity. Qed.
Lemma option_more_nil h (x : addr) : h x = option_map (more []) (h x).
Proof. destruct (h x); [|reflexivity]. cbn. rewrite more_nil. reflexivity. Qed.

Lemma push_each_spec d ps : forall h, (forall p, In p ps -> mc_in h p) ->
  exists h', push_each (add_daughter d) h ps = Ok h' /\
    forall x, h' x = option_map (more (repeat d (count_occ Z.eq_dec ps x))) (h x).
Proof.
  induction ps as [|p ps IH]; intros h Hp.
  - exists h. split; [reflexivity|]. intros x. apply option_more_nil.
  - destruct (Hp p (or_introl eq_refl)) as (H0 & m & Hm). cbn [push_each]. rewrite (mcp_at_in h p m H0 Hm). cbn [bind].
    destruct (IH (hupd h p (OMC (add_daughter d m)))) as (h' & E & Hx).
    { intros q Hq. destruct (Hp q (or_intror Hq)) as (Hq0 & mq & Hmq). split; [exact Hq0|]. unfold hupd.
      destruct (q =? p); eexists; [reflexivity|exact Hmq]. }
    exists h'. split; [exact E|]. intros x. rewrite Hx. unfold hupd. cbn [count_occ].
    destruct (x =? p) eqn:Ex.
    + assert (x = p) by lia. subst x. destruct (Z.eq_dec p p); [|contradiction]. rewrite Hm. cbn [option_map repeat].
      change (d :: repeat d (count_occ Z.eq_dec ps p)) with ([d] ++ repeat d (count_occ Z.eq_dec ps p)). rewrite more_app. reflexivity.
    + destruct (Z.eq_dec p x); [lia|]. reflexivity.
Qed.

Lemma more_parents ds h h' : (forall x, h' x = option_map (more (ds x)) (h x)) -> forall x, parents h' x = parents h x.
Proof. intros H x. unfold parents. rewrite H. destruct (h x) as [[]|]; reflexivity. Qed.
Lemma more_mc_in ds h h' : (forall x, h' x = option_map (more (ds x)) (h x)) -> forall x, mc_in h x -> mc_in h' x.
Proof. intros H x (H0 & m & Hm). split; [exact H0|]. rewrite H, Hm. eexists. reflexivity. Qed.

Lemma restore_elems_spec np l : 0 < np -> forall h, (forall a, In a l -> mc_in h a) ->
  (forall a p, In a l -> In p (parents h a) -> mc_in h p) ->
  exists h', restore_elems 0 np h l = Ok h' /\
    forall x, h' x = option_map (more (flat_map (fun a => repeat a (count_occ Z.eq_dec (parents h a) x)) l)) (h x).
Proof.
  intros Hnp. induction l as [|a l IH]; intros h Ha Hp.
  - exists h. split; [reflexivity|]. intros x. apply option_more_nil.
  - destruct (Ha a (or_introl eq_refl)) as (H0 & m & Hm). cbn [restore_elems]. rewrite (mcp_at_in h a m H0 Hm). cbn [bind].
    replace ((np =? 0) && (0 <? 0)) with false by (cbn; rewrite andb_false_r; reflexivity).
    replace ((0 <? np) && (0 =? 0)) with true by (symmetry; apply andb_true_iff; split; [lia|reflexivity]).
    assert (Epar : parents h a = mc_parents m) by (unfold parents; rewrite Hm; reflexivity).
    destruct (push_each_spec a (mc_parents m) h) as (h1 & E1 & Hx1).
    { intros p Hpp. apply (Hp a p (or_introl eq_refl)). rewrite Epar. exact Hpp. }
    rewrite E1. cbn [bind]. pose proof (more_parents _ _ _ Hx1) as Hpar. pose proof (more_mc_in _ _ _ Hx1) as Hmc.
    destruct (IH h1) as (h' & E & Hx).
    { intros b Hb. apply Hmc. apply Ha. right. exact Hb. }
    { intros b p Hb Hpp. rewrite Hpar in Hpp. apply Hmc. apply (Hp b p (or_intror Hb) Hpp). }
    exists h'. split; [exact E|]. intros x. rewrite Hx, Hx1. cbn [flat_map]. rewrite Epar.
    destruct (h x) as [o|]; [|reflexivity]. cbn [option_map]. rewrite <- more_app. f_equal. f_equal. f_equal.
    apply flat_map_ext. intros b. rewrite Hpar. reflexivity.
Qed.

Definition daughters (h : heap) (a : addr) : list addr := match h a with Some (OMC m) => mc_daughters m | _ => [] end.

Lemma count_links_spec h l : (forall a, In a l -> mc_in h a) -> (forall a, In a l -> daughters h a = []) ->
  count_links h l = Ok (0, Zlen (flat_map (parents h) l)).
Proof.
  intros Ha Hd. induction l as [|a l IH]; [reflexivity|]. cbn [count_links flat_map].
  destruct (Ha a (or_introl eq_refl)) as (H0 & m & Hm). rewrite (mcp_at_in h a m H0 Hm). cbn [bind].
  rewrite IH by (intros b Hb; first [apply Ha|apply Hd]; right; exact Hb). cbn [bind].
  pose proof (Hd a (or_introl eq_refl)) as Hda. unfold daughters in Hda. unfold parents at 2. rewrite Hm in *. rewrite Hda, Zlen_app. reflexivity.
Qed.
Lemma restore_elems_none h l np : (forall a, In a l -> mc_in h a) -> np = 0 -> restore_elems 0 np h l = Ok h.
Proof.
  intros Ha ->. induction l as [|a l IH]; [reflexivity|]. cbn [restore_elems].
  destruct (Ha a (or_introl eq_refl)) as (H0 & m & Hm). rewrite (mcp_at_in h a m H0 Hm). cbn [bind Z.eqb Z.ltb andb Z.compare].
  apply IH. intros b Hb. apply Ha. right. exact Hb.
Qed.

Lemma flat_map_nil {A B} (f : A -> list B) l : (forall a, In a l -> f a = []) -> flat_map f l = [].
Proof. intros H. induction l as [|x l IH]; [reflexivity|]. cbn. rewrite (H x (or_introl eq_refl)). apply IH. intros a Ha. apply H. right. exact Ha. Qed.

Lemma restore_spec : forall cols h,
  (forall nc a, In nc cols -> is_mc (snd nc) = true -> In a (c_elems (snd nc)) -> mc_in h a /\ daughters h a = []) ->
  (forall nc a p, In nc cols -> is_mc (snd nc) = true -> In a (c_elems (snd nc)) -> In p (parents h a) -> mc_in h p) ->
  (forall pre nc post nc2 a p, cols = pre ++ nc :: post -> In nc2 post -> is_mc (snd nc) = true -> is_mc (snd nc2) = true ->
     In a (c_elems (snd nc)) -> In p (c_elems (snd nc2)) -> ~ In p (parents h a)) ->
  exists h', restore h cols = Ok h' /\ forall x, h' x = option_map (more (daughters_of h cols x)) (h x).
Proof.
  induction cols as [|[n c] cols IH]; intros h HA HB HC.
  - exists h. split; [reflexivity|]. intros x. apply option_more_nil.
  - cbn [restore]. change (bytes_eqb (c_type c) (str "MCParticle") && negb (bit_set (c_flag c) BITSubset)) with (is_mc c).
    assert (HC' : forall pre nc post nc2 a p, cols = pre ++ nc :: post -> In nc2 post -> is_mc (snd nc) = true -> is_mc (snd nc2) = true ->
     In a (c_elems (snd nc)) -> In p (c_elems (snd nc2)) -> ~ In p (parents h a)).
    { intros pre nc post nc2 a p E. apply (HC ((n, c) :: pre) nc post nc2 a p). rewrite E. reflexivity. }
    destruct (is_mc c) eqn:Em.
    + pose proof (fun a => HA (n, c) a (or_introl eq_refl) Em) as HA1. cbn [snd] in HA1.
      rewrite count_links_spec by (intros a Ha; apply HA1; exact Ha). cbn [bind].
      assert (exists h1, restore_elems 0 (Zlen (flat_map (parents h) (c_elems c))) h (c_elems c) = Ok h1 /\
        forall x, h1 x = option_map (more (flat_map (fun a => repeat a (count_occ Z.eq_dec (parents h a) x)) (c_elems c))) (h x)) as (h1 & E1 & Hx1).
      { destruct (flat_map (parents h) (c_elems c)) as [|q qs] eqn:Eq.
        - exists h. split; [apply restore_elems_none; [intros a Ha; apply HA1; exact Ha|reflexivity]|].
          intros x. rewrite flat_map_nil; [apply option_more_nil|]. intros a Ha.
          assert (Epa : parents h a = []).
          { destruct (parents h a) as [|y ys] eqn:Ey; [reflexivity|]. exfalso.
            assert (In y []) as []. { rewrite <- Eq. apply in_flat_map. exists a. rewrite Ey. split; [exact Ha|left; reflexivity]. } }
          rewrite Epa. reflexivity.
        - rewrite <- Eq. apply restore_elems_spec.
          + rewrite Eq, Zlen_cons. pose proof (Zlen_nonneg qs). lia.
          + intros a Ha. apply HA1. exact Ha.
          + intros a p Ha Hp. apply (HB (n, c) a p (or_introl eq_refl) Em Ha Hp). }
      rewrite E1. cbn [bind]. pose proof (more_parents _ _ _ Hx1) as Hpar. pose proof (more_mc_in _ _ _ Hx1) as Hmc.
      destruct (IH h1) as (h' & E & Hx).
      * intros nc a Hnc Hm Ha. destruct (HA nc a (or_intror Hnc) Hm Ha) as [G1 G2]. split; [apply Hmc; exact G1|].
        assert (Enil : flat_map (fun b => repeat b (count_occ Z.eq_dec (parents h b) a)) (c_elems c) = []).
        { apply flat_map_nil. intros b Hb. replace (count_occ Z.eq_dec (parents h b) a) with O; [reflexivity|]. symmetry.
          apply count_occ_not_In. apply (HC [] (n, c) cols nc b a eq_refl Hnc Em Hm Hb Ha). }
        unfold daughters in *. rewrite Hx1, Enil. destruct (h a) as [o|]; [|reflexivity]. cbn [option_map]. rewrite more_nil. exact G2.
      * intros nc a p Hnc Hm Ha Hp. rewrite Hpar in Hp. apply Hmc. apply (HB nc a p (or_intror Hnc) Hm Ha Hp).
      * intros pre nc post nc2 a p Ec H2 M1 M2 Ha Hp. rewrite Hpar. eapply HC'; eassumption.
      * exists h'. split; [exact E|]. intros x. rewrite Hx, Hx1. unfold daughters_of. cbn [flat_map snd]. rewrite Em.
        destruct (h x) as [o|]; [|reflexivity]. cbn [option_map]. rewrite <- more_app. f_equal. f_equal. f_equal.
        apply flat_map_ext. intros nc. destruct (is_mc (snd nc)); [|reflexivity]. apply flat_map_ext. intros b. rewrite Hpar. reflexivity.
    + destruct (IH h) as (h' & E & Hx).
      * intros nc a Hnc. apply HA. right. exact Hnc.
      * intros nc a p Hnc. apply HB. right. exact Hnc.
      * exact HC'.
      * exists h'. split; [exact E|]. intros x. rewrite Hx. unfold daughters_of at 2. cbn [flat_map snd]. rewrite Em. reflexivity.
Qed.

(** ** The event that was read *)

Lemma is_mc_handler c ty : is_mc c = true -> get_handler (c_type c) = Some ty -> ty = TMC /\ is_subset c = false.
Proof.
  unfold is_mc. intros H Hty. apply andb_true_iff in H. destruct H as [H1 H2]. apply bytes_eqb_eq in H1.
  rewrite H1 in Hty. vm_compute in Hty. injection Hty as <-. split; [reflexivity|]. destruct (is_subset c); [discriminate|reflexivity].
Qed.
Lemma coll_as_mc h em nc nc' : coll_as h em nc nc' -> is_mc (snd nc') = is_mc (snd nc) /\ is_subset (snd nc') = is_subset (snd nc).
Proof.
  intros (_ & Ht & ty & _ & Hf & _). unfold is_mc. rewrite Ht.
  assert (E : is_subset (snd nc') = is_subset (snd nc)) by (unfold is_subset at 1; rewrite Hf; apply stored_flag_subset).
  rewrite E. split; reflexivity.
Qed.

Lemma count_occ_map_inj (f : addr -> addr) l x : (forall y, In y l -> f y = f x -> y = x) ->
  count_occ Z.eq_dec (map f l) (f x) = count_occ Z.eq_dec l x.
Proof.
  induction l as [|y l IH]; intros H; [reflexivity|]. cbn [map count_occ].
  rewrite IH by (intros z Hz; apply H; right; exact Hz).
  destruct (Z.eq_dec (f y) (f x)) as [E|E]; destruct (Z.eq_dec y x) as [E'|E']; try reflexivity.
  - exfalso. apply E'. apply H; [left; reflexivity|exact E].
  - exfalso. apply E. congruence.
Qed.
Lemma map_repeat {A B} (f : A -> B) x n : map f (repeat x n) = repeat (f x) n.
Proof. induction n; cbn; congruence. Qed.

Lemma Forall2_app_cons_r {A B} (R : A -> B -> Prop) l pre x post : Forall2 R l (pre ++ x :: post) ->
  exists pre' x' post', l = pre' ++ x' :: post' /\ Forall2 R pre' pre /\ R x' x /\ Forall2 R post' post.
Proof.
  revert l. induction pre as [|y pre IH]; intros l F.
  - inversion F as [|a b l0 l1 Hab F']; subst. exists [], a, l0. auto.
  - inversion F as [|a b l0 l1 Hab F']; subst. destruct (IH _ F') as (p & q & t & -> & G1 & G2 & G3).
    exists (a :: p), q, t. split; [reflexivity|]. split; [constructor; assumption|auto].
Qed.

Lemma restored srt only names h e new next e' h' :
  event_ok only h e -> 0 < next -> numbers new (event_objs only names h e) next ->
  mc_links_ok h (read_back only names e) ->
  Forall2 (coll_as h (elem_map new (target new (event_tags only names h e)))) (read_back only names e) (ev_cols e') ->
  (forall nc a o, In nc (read_back only names e) -> is_subset (snd nc) = false -> In a (c_elems (snd nc)) -> h a = Some o ->
       h' (new a) = copy_in srt new (target new (event_tags only names h e)) h (snd nc) o) ->
  exists h2, restore h' (ev_cols e') = Ok h2 /\
    (forall x, h' x = None -> h2 x = None) /\
    forall nc a o, In nc (read_back only names e) -> is_subset (snd nc) = false -> In a (c_elems (snd nc)) -> h a = Some o ->
      h2 (new a) = option_map (more (map new (daughters_of h (read_back only names e) a)))
                     (copy_in srt new (target new (event_tags only names h e)) h (snd nc) o).
Proof.
  intros He Hnext Hnum Hlinks F Hheap. set (tgt := target new (event_tags only names h e)) in *.
  pose proof He as (_ & _ & _ & _ & _ & _ & _ & H8 & H9). rewrite Forall_forall in H8.
  assert (Hok : forall nc, In nc (read_back only names e) -> exists ty, get_handler (c_type (snd nc)) = Some ty /\ coll_ok ty h (snd nc)).
  { intros nc Hnc. apply filter_In in Hnc. destruct (H8 nc (proj1 Hnc)) as (_ & _ & H). exact H. }
  assert (Hnd : NoDup (event_objs only names h e)) by (apply NoDup_flat_map_filter; exact H9).
  (* elements of MCParticle collections *)
  assert (Hel : forall nc a, In nc (read_back only names e) -> is_mc (snd nc) = true -> In a (c_elems (snd nc)) ->
     In a (event_objs only names h e) /\ tgt a = new a /\ 0 < new a /\ exists m, h a = Some (OMC m) /\
     h' (new a) = Some (OMC (map_refs_mcp tgt (stored_mcp m)))).
  { intros nc a Hnc Hm Ha. destruct (Hok nc Hnc) as (ty & Hty & Hc). destruct (is_mc_handler _ _ Hm Hty) as [-> Hs].
    pose proof Hc as (_ & _ & _ & _ & Hel & _). destruct (Hel Hs) as [Ht _]. destruct (Ht a Ha) as (Ha0 & o & Ho & Hto).
    assert (Hin : In a (event_objs only names h e)).
    { apply in_flat_map. exists nc. split; [exact Hnc|]. unfold coll_objs. rewrite Hs. apply in_flat_map. exists a. split; [exact Ha|left; reflexivity]. }
    destruct o as [m| | | | | | | | | | | | | | | | | | | |]; try discriminate.
    assert (Htag : In a (event_tags only names h e)).
    { apply in_flat_map. exists nc. split; [exact Hnc|]. unfold coll_tags. rewrite Hs. apply in_flat_map. exists a. split; [exact Ha|]. rewrite Ho. left. reflexivity. }
    split; [exact Hin|]. split.
    - unfold tgt, target. replace (a =? 0) with false by lia. destruct (in_dec Z.eq_dec a _); [reflexivity|contradiction].
    - split; [exact (numbers_pos _ _ _ _ Hnum Hnext Hin)|]. exists m. split; [exact Ho|].
      rewrite (Hheap nc a (OMC m) Hnc Hs Ha Ho). unfold copy_in. rewrite Hty. reflexivity. }
  assert (Hpar : forall nc a p, In nc (read_back only names e) -> is_mc (snd nc) = true -> In a (c_elems (snd nc)) -> In p (parents h a) ->
     exists nc', In nc' (read_back only names e) /\ is_mc (snd nc') = true /\ In p (c_elems (snd nc'))).
  { intros nc a p Hnc Hm Ha Hp. apply in_split in Hnc. destruct Hnc as (pre & post & E).
    destruct (Hlinks pre nc post a p E Hm Ha Hp) as (nc' & Hin & M & Hp'). exists nc'. split; [|auto].
    rewrite E. change (nc :: post) with ([nc] ++ post). rewrite app_assoc. apply in_or_app. left. exact Hin. }
  assert (Hpeq : forall nc a, In nc (read_back only names e) -> is_mc (snd nc) = true -> In a (c_elems (snd nc)) ->
     parents h' (new a) = map tgt (parents h a)).
  { intros nc a Hnc Hm Ha. destruct (Hel nc a Hnc Hm Ha) as (_ & _ & _ & m & Ho & Hh'). unfold parents. rewrite Ho, Hh'. reflexivity. }
  assert (Helems : forall nc nc', In nc (read_back only names e) -> coll_as h (elem_map new tgt) nc nc' -> is_mc (snd nc) = true ->
     c_elems (snd nc') = map new (c_elems (snd nc))).
  { intros nc nc' Hnc Has Hm. destruct (Hok nc Hnc) as (ty & Hty & _). destruct (is_mc_handler _ _ Hm Hty) as [_ Hs].
    destruct Has as (_ & _ & ty' & _ & _ & _ & E). rewrite E, Hs. reflexivity. }
  destruct (restore_spec (ev_cols e') h') as (h2 & E2 & Hx2).
  - intros nc' a' Hnc' Hm' Ha'. destruct (Forall2_in_r _ _ _ _ F Hnc') as (nc & Hnc & Has).
    rewrite (proj1 (coll_as_mc _ _ _ _ Has)) in Hm'. rewrite (Helems nc nc' Hnc Has Hm') in Ha'. apply in_map_iff in Ha'.
    destruct Ha' as (a & <- & Ha). destruct (Hel nc a Hnc Hm' Ha) as (_ & _ & Hp & m & Ho & Hh').
    split; [split; [lia|eexists; exact Hh']|]. unfold daughters. rewrite Hh'. reflexivity.
  - intros nc' a' p' Hnc' Hm' Ha' Hp'. destruct (Forall2_in_r _ _ _ _ F Hnc') as (nc & Hnc & Has).
    rewrite (proj1 (coll_as_mc _ _ _ _ Has)) in Hm'. rewrite (Helems nc nc' Hnc Has Hm') in Ha'. apply in_map_iff in Ha'.
    destruct Ha' as (a & <- & Ha). rewrite (Hpeq nc a Hnc Hm' Ha) in Hp'. apply in_map_iff in Hp'. destruct Hp' as (p & <- & Hp).
    destruct (Hpar nc a p Hnc Hm' Ha Hp) as (nc2 & Hnc2 & Hm2 & Hp2).
    destruct (Hel nc2 p Hnc2 Hm2 Hp2) as (_ & Ht & Hpos & m & _ & Hh'). rewrite Ht. split; [lia|eexists; exact Hh'].
  - intros pre' nc' post' nc2' a' p' Ec H2 M1 M2 Ha' Hp' Hin'. rewrite Ec in F.
    destruct (Forall2_app_cons_r _ _ _ _ _ F) as (pre & nc & post & Eb & Fpre & Has & Fpost).
    destruct (Forall2_in_r _ _ _ _ Fpost H2) as (nc2 & Hnc2 & Has2).
    assert (Hnc : In nc (read_back only names e)) by (rewrite Eb; apply in_or_app; right; left; reflexivity).
    assert (Hnc2' : In nc2 (read_back only names e)) by (rewrite Eb; apply in_or_app; right; right; exact Hnc2).
    rewrite (proj1 (coll_as_mc _ _ _ _ Has)) in M1. rewrite (proj1 (coll_as_mc _ _ _ _ Has2)) in M2.
    rewrite (Helems nc nc' Hnc Has M1) in Ha'. rewrite (Helems nc2 nc2' Hnc2' Has2 M2) in Hp'.
    apply in_map_iff in Ha', Hp'. destruct Ha' as (a & <- & Ha), Hp' as (p & <- & Hp).
    rewrite (Hpeq nc a Hnc M1 Ha) in Hin'. apply in_map_iff in Hin'. destruct Hin' as (q & Eq & Hq).
    destruct (Hlinks pre nc post a q Eb M1 Ha Hq) as (nc3 & Hin3 & M3 & Hq3).
    assert (Hnc3 : In nc3 (read_back only names e)).
    { rewrite Eb. change (nc :: post) with ([nc] ++ post). rewrite app_assoc. apply in_or_app. left. exact Hin3. }
    destruct (Hel nc3 q Hnc3 M3 Hq3) as (Iq & Tq & _). destruct (Hel nc2 p Hnc2' M2 Hp) as (Ip & _).
    assert (q = p) by (apply (numbers_inj _ _ _ Hnum); [exact Iq|exact Ip|congruence]). subst q.
    (* the object would be in two collections *)
    unfold event_objs in Hnd. rewrite Eb in Hnd. change (nc :: post) with ([nc] ++ post) in Hnd. rewrite app_assoc, flat_map_app in Hnd.
    apply NoDup_app_iff in Hnd. destruct Hnd as (_ & _ & Hdis). apply (Hdis p); apply in_flat_map.
    + exists nc3. split; [exact Hin3|]. destruct (Hok nc3 Hnc3) as (ty & Hty & _). destruct (is_mc_handler _ _ M3 Hty) as [_ Hs].
      unfold coll_objs. rewrite Hs. apply in_flat_map. exists p. split; [exact Hq3|left; reflexivity].
    + exists nc2. split; [exact Hnc2|]. destruct (Hok nc2 Hnc2') as (ty & Hty & _). destruct (is_mc_handler _ _ M2 Hty) as [_ Hs].
      unfold coll_objs. rewrite Hs. apply in_flat_map. exists p. split; [exact Hp|left; reflexivity].
  - exists h2. split; [exact E2|]. split; [intros x Hx; rewrite Hx2, Hx; reflexivity|]. intros nc a o Hnc Hs Ha Ho. rewrite Hx2, (Hheap nc a o Hnc Hs Ha Ho).
    assert (Hina : In a (event_objs only names h e)).
    { apply in_flat_map. exists nc. split; [exact Hnc|]. unfold coll_objs. rewrite Hs. apply in_flat_map. exists a. split; [exact Ha|left; reflexivity]. }
    f_equal. f_equal. clear E2 Hx2 h2.
    unfold daughters_of. rewrite map_flat_map.
    assert (Hgen : forall cols cols', Forall2 (coll_as h (elem_map new tgt)) cols cols' -> incl cols (read_back only names e) ->
      flat_map (fun nc => if is_mc (snd nc) then flat_map (fun a0 => repeat a0 (count_occ Z.eq_dec (parents h' a0) (new a))) (c_elems (snd nc)) else []) cols'
      = flat_map (fun a0 => map new (if is_mc (snd a0) then flat_map (fun a1 => repeat a1 (count_occ Z.eq_dec (parents h a1) a)) (c_elems (snd a0)) else [])) cols).
    { intros cols cols' G. induction G as [|x x' cols cols' Hx G IH]; intros Hincl; [reflexivity|]. cbn [flat_map].
      rewrite IH by (intros y Hy; apply Hincl; right; exact Hy). f_equal.
      rewrite (proj1 (coll_as_mc _ _ _ _ Hx)). destruct (is_mc (snd x)) eqn:Mx; [|reflexivity].
      assert (Hxin : In x (read_back only names e)) by (apply Hincl; left; reflexivity).
      rewrite (Helems x x' Hxin Hx Mx). rewrite map_flat_map, flat_map_concat_map, map_map, <- flat_map_concat_map.
      apply flat_map_ext_in. intros b Hb. rewrite map_repeat. f_equal. rewrite (Hpeq x b Hxin Mx Hb).
      assert (Em : map tgt (parents h b) = map new (parents h b)).
      { apply map_ext_in. intros p Hp. destruct (Hpar x b p Hxin Mx Hb Hp) as (y & Hy & My & Hpy).
        destruct (Hel y p Hy My Hpy) as (_ & Tp & _). exact Tp. }
      rewrite Em. apply count_occ_map_inj. intros y Hy Ey. destruct (Hpar x b y Hxin Mx Hb Hy) as (z & Hz & Mz & Hyz).
      destruct (Hel z y Hz Mz Hyz) as (Iy & _). exact (numbers_inj _ _ _ Hnum y a Iy Hina Ey). }
    apply (Hgen _ _ F). intros x Hx. exact Hx.
Qed.

(** null elements *)
Lemma no_null only names h e new next e' : event_ok only h e -> 0 < next -> numbers new (event_objs only names h e) next ->
  subsets_ok h (event_tags only names h e) (read_back only names e) ->
  Forall2 (coll_as h (elem_map new (target new (event_tags only names h e)))) (read_back only names e) (ev_cols e') ->
  null_in_subset (ev_cols e') = false.
Proof.
  intros He Hnext Hnum Hsub F. unfold null_in_subset. destruct (existsb _ _) eqn:E; [exfalso|reflexivity].
  apply existsb_exists in E. destruct E as (nc' & Hnc' & E). apply andb_true_iff in E. destruct E as [Es En].
  apply existsb_exists in En. destruct En as (a' & Ha' & Ez). assert (a' = 0) by lia. subst a'.
  destruct (Forall2_in_r _ _ _ _ F Hnc') as (nc & Hnc & Has). change (bit_set (c_flag (snd nc')) BITSubset) with (is_subset (snd nc')) in Es.
  rewrite (proj2 (coll_as_mc _ _ _ _ Has)) in Es. destruct Has as (_ & _ & ty & _ & _ & _ & Eel). rewrite Eel, Es in Ha'.
  apply in_map_iff in Ha'. destruct Ha' as (a & Ea & Ha). destruct (Hsub nc a Hnc Es Ha) as [Ha0 Htag].
  unfold elem_map, target in Ea. replace (a =? 0) with false in Ea by lia. destruct (in_dec Z.eq_dec a _) as [_|Hc]; [|contradiction].
  assert (Hin : In a (event_objs only names h e)).
  { apply in_flat_map in Htag. destruct Htag as (x & Hx & Hax). apply in_flat_map. exists x. split; [exact Hx|]. exact (part_incl _ _ (part_tags h (snd x)) a Hax). }
  pose proof (numbers_pos _ _ _ _ Hnum Hnext Hin). lia.
Qed.

Lemma null_found only names h e new e' nc a :
  Forall2 (coll_as h (elem_map new (target new (event_tags only names h e)))) (read_back only names e) (ev_cols e') ->
  In nc (read_back only names e) -> is_subset (snd nc) = true -> In a (c_elems (snd nc)) -> ~ In a (event_tags only names h e) ->
  null_in_subset (ev_cols e') = true.
Proof.
  intros F Hnc Hs Ha Hnot. destruct (Forall2_in_l _ _ _ _ F Hnc) as (nc' & Hnc' & Has).
  unfold null_in_subset. apply existsb_exists. exists nc'. split; [exact Hnc'|]. apply andb_true_iff.
  split; [change (is_subset (snd nc') = true); rewrite (proj2 (coll_as_mc _ _ _ _ Has)); exact Hs|].
  apply existsb_exists. exists 0. split; [|reflexivity]. destruct Has as (_ & _ & ty & _ & _ & _ & Eel). rewrite Eel, Hs.
  apply in_map_iff. exists a. split; [|exact Ha]. unfold elem_map, target. destruct (a =? 0); [reflexivity|].
  destruct (in_dec Z.eq_dec a _); [contradiction|reflexivity].
Qed.

(** ** Everything together *)

Theorem event_roundtrip srt ignore_null only names h e buf1 buf2 new next :
  event_ok only h e -> event_fits only h e ->
  b_valid buf1 = true -> b_bytes buf1 <> [] -> b_valid buf2 = true -> b_bytes buf2 <> [] ->
  0 < next -> numbers new (event_objs only names h e) next -> mc_links_ok h (read_back only names e) ->
  exists rh bh e1 re be,
    write_header_record buf1 only e = Ok (rh, bh) /\ ri_name rh = header_record /\
    write_event_record buf2 only h e = Ok (e1, re, be) /\ ri_name re = event_record /\
    same_header e e1 /\ Forall2 (written_as only h) (ev_cols e) (ev_cols e1) /\
    let tgt := target new (event_tags only names h e) in
    let res := read_event srt ignore_null names (rec_data rh (b_bytes bh)) (rec_data re (b_bytes be)) next in
    (ignore_null = true \/ subsets_ok h (event_tags only names h e) (read_back only names e) ->
     exists e' h', res = Ok (e', h', next + Zlen (event_objs only names h e)) /\
       same_header e e' /\
       Forall2 (coll_as h (fun sub => if sub then tgt else new)) (read_back only names e) (ev_cols e') /\
       forall nc a o, In nc (read_back only names e) -> is_subset (snd nc) = false -> In a (c_elems (snd nc)) -> h a = Some o ->
         h' (new a) = option_map (more (map new (daughters_of h (read_back only names e) a)))
                        (copy_in srt new tgt h (snd nc) o)) /\
    (ignore_null = false ->
     (exists nc a, In nc (read_back only names e) /\ is_subset (snd nc) = true /\ In a (c_elems (snd nc)) /\
                   ~ In a (event_tags only names h e)) -> res = Throw LException).
Proof.
  intros He Hf Hv1 Hb1 Hv2 Hb2 Hnext Hnum Hl.
  destruct (header_roundtrip buf1 only names h e Hv1 Hb1 He (proj1 Hf)) as (rh & bh & Ewh & Enh & Erh).
  destruct (event_record_spec srt only names h e buf2 new next He Hf Hv2 Hb2 Hnum)
    as (e1 & re & be & Ewe & Ene & Hsame & Fw & e' & h' & Ere & Hsame' & Fr & Hheap).
  exists rh, bh, e1, re, be. repeat (split; [assumption|]). cbv zeta.
  destruct (restored srt only names h e new next e' h' He Hnext Hnum Hl Fr Hheap) as (h2 & E2 & _ & Hx2).
  unfold read_event. rewrite Erh. cbn [bind]. rewrite Ere. cbn [bind]. unfold post_process. rewrite E2. cbn [bind]. split.
  - intros Hig. exists e', h2.
    assert (Hc : negb ignore_null && null_in_subset (ev_cols e') = false).
    { destruct Hig as [->|Hsub]; [reflexivity|]. rewrite (no_null only names h e new next e' He Hnext Hnum Hsub Fr). apply andb_false_r. }
    rewrite Hc. cbn [bind]. split; [reflexivity|]. split; [exact Hsame'|]. split; [exact Fr|exact Hx2].
  - intros -> (nc & a & Hnc & Hs & Ha & Hnot). rewrite (null_found only names h e new e' nc a Fr Hnc Hs Ha Hnot). reflexivity.
Qed.

Lemma numbering_exists l n : NoDup l -> exists f, numbers f l n.
Proof.
  revert n. induction l as [|a l IH]; intros n H.
  - exists (fun a => a). intros [|i] a Hi; discriminate.
  - inversion H as [|? ? Hn Hd]; subst. destruct (IH (n + 1) Hd) as (f & Hf).
    exists (fun b => if b =? a then n else f b). intros [|i] b Hi; cbn [nth_error] in Hi.
    + injection Hi as <-. rewrite Z.eqb_refl. lia.
    + replace (b =? a) with false.
      * rewrite (Hf i b Hi). lia.
      * symmetry. apply Z.eqb_neq. intros ->. apply Hn. eapply nth_error_In. exact Hi.
Qed.
