(** * Who deletes the objects of an event that was read: proofs *)

From Verif Require Import Bytes StrMap SioModel ObjModel EventModel OwnModel OwnSpec OwnProofs OwnReadSpec.
From Verif Require Import ObjSpec EventProofs InputSpec InputProofs InputObj InputEvent.

(** ** Post processing neither makes nor deletes objects *)
Definition same_dom (h h' : heap) : Prop := forall a, h a = None <-> h' a = None.
Lemma sd_refl h : same_dom h h. Proof. intros a. tauto. Qed.
Lemma sd_trans h1 h2 h3 : same_dom h1 h2 -> same_dom h2 h3 -> same_dom h1 h3.
Proof. intros A B a. rewrite (A a). apply B. Qed.
Lemma sd_hupd h a o x : mcp_at h a = Ok o -> same_dom h (hupd h a x).
Proof.
  unfold mcp_at. destruct (a =? 0); [discriminate|]. destruct (h a) as [y|] eqn:E; [|discriminate]. intros _ b. unfold hupd.
  destruct (Z.eqb_spec b a) as [->|]; [|tauto]. rewrite E. split; discriminate.
Qed.
Lemma sd_push f : forall l h h', push_each f h l = Ok h' -> same_dom h h'.
Proof.
  induction l as [|a l IH]; intros h h'; cbn [push_each].
  - intros E. injection E as <-. apply sd_refl.
  - destruct (mcp_at h a) as [o| |] eqn:E; cbn [bind]; try discriminate. intros H.
    eapply sd_trans; [apply (sd_hupd _ _ _ (OMC (f o)) E)|apply (IH _ _ H)].
Qed.
Lemma sd_elems nd np : forall l h h', restore_elems nd np h l = Ok h' -> same_dom h h'.
Proof.
  induction l as [|a l IH]; intros h h'; cbn [restore_elems].
  - intros E. injection E as <-. apply sd_refl.
  - destruct (mcp_at h a) as [o| |] eqn:E; cbn [bind]; try discriminate.
    match goal with |- context [bind ?x _] => destruct x as [h1| |] eqn:E1 end; cbn [bind]; try discriminate. intros H.
    eapply sd_trans; [|apply (IH _ _ H)]. clear H.
    destruct ((np =? 0) && (0 <? nd)); [apply (sd_push _ _ _ _ E1)|].
    destruct ((0 <? np) && (nd =? 0)); [apply (sd_push _ _ _ _ E1)|]. injection E1 as <-. apply sd_refl.
Qed.
Lemma sd_restore : forall cols h h', restore h cols = Ok h' -> same_dom h h'.
Proof.
  induction cols as [|[n c] cols IH]; intros h h'; cbn [restore].
  - intros E. injection E as <-. apply sd_refl.
  - destruct (_ && _); [|apply IH]. destruct (count_links h (c_elems c)) as [[nd np]| |]; cbn [bind]; try discriminate.
    destruct (restore_elems nd np h (c_elems c)) as [h1| |] eqn:E; cbn [bind]; try discriminate. intros H.
    eapply sd_trans; [apply (sd_elems _ _ _ _ _ E)|apply (IH _ _ H)].
Qed.
Lemma sd_post ign h e h' : post_process ign h e = Ok h' -> same_dom h h'.
Proof.
  unfold post_process. destruct (restore h (ev_cols e)) as [h1| |] eqn:E; cbn [bind]; try discriminate.
  destruct (_ && _); [discriminate|]. intros H. injection H as <-. apply (sd_restore _ _ _ E).
Qed.

(** ** A subset makes no objects *)
Lemma read_coll_subset srt ty v d rc d' : read_coll srt ty v d = Ok (rc, d') -> bit_set (rc_flag rc) BITSubset = true -> rc_objs rc = [].
Proof.
  unfold read_coll, rbind. destruct (init_reading ty v d) as [[[p hs] d1]| |]; try discriminate.
  destruct (r_i32 d1) as [[n d2]| |]; try discriminate. destruct (n <? 0); [discriminate|].
  destruct (bit_set (h_flag hs) BITSubset) eqn:B.
  - destruct (r_loop n r_pointer_to d2) as [[l d3]| |]; try discriminate. intros E. injection E as <- <-. reflexivity.
  - match goal with |- context [r_loop n ?m d2] => destruct (r_loop n m d2) as [[l d3]| |] end; try discriminate.
    intros E. injection E as <- <-. cbn [rc_flag]. congruence.
Qed.
Lemma blocks_subset srt cols buf : forall fuel pos at_ next out at2 next2,
  read_blocks_loop fuel buf (coll_handlers srt cols) pos at_ next = Ok (out, at2, next2) ->
  Forall (fun x => bit_set (rc_flag (snd x)) BITSubset = true -> rc_objs (snd x) = []) out.
Proof.
  induction fuel as [|fuel IH]; intros pos at_ next out at2 next2; cbn [read_blocks_loop]; [discriminate|].
  destruct (Zlen buf <=? pos). { intros E. injection E as <- <- <-. constructor. }
  destruct (extract_block buf pos) as [[info sp]|e|u]; cbn [bind]; [|discriminate|discriminate].
  destruct (find_block (bi_name info) (coll_handlers srt cols)) as [blk|] eqn:F;
    [|match goal with |- context [if ?b then _ else _] => destruct b end; [discriminate|apply IH]].
  unfold r_seek; match goal with |- context [if ?b then _ else _] => destruct b end; cbn [bind]; try discriminate.
  apply find_some in F. destruct F as [F _]. unfold coll_handlers in F. apply in_map_iff in F.
  destruct F as ([n c] & <- & Hi). cbn [rb_read rb_name fst snd] in *.
  destruct (get_handler (c_type c)) as [ty|] eqn:G; [|cbn; discriminate].
  match goal with |- context [read_coll srt ty ?v ?d] => destruct (read_coll srt ty v d) as [[a d']|e|u] eqn:R end; cbn [rethrow bind];
    [|destruct (is_sio e); discriminate|discriminate].
  match goal with |- context [bind ?x _] => destruct x as [[[rest a2] n2]|e|u] eqn:E end; cbn [bind]; [|discriminate|discriminate].
  intros X. injection X as <- <- <-. constructor; [|apply (IH _ _ _ _ _ _ E)]. cbn [snd]. apply (read_coll_subset _ _ _ _ _ _ R).
Qed.

(** ** Elements of the collections that were read *)
Lemma nodup_app_l {A} (l l' : list A) : NoDup (l ++ l') -> NoDup l /\ NoDup l' /\ forall a, In a l -> In a l' -> False.
Proof.
  induction l as [|x l IH]; cbn [app].
  - intros N. split; [constructor|]. split; [exact N|]. intros a [].
  - intros N. inversion N as [|? ? Hx N']; subst. destruct (IH N') as (A1 & A2 & A3). rewrite in_app_iff in Hx. split; [|split].
    + constructor; tauto.
    + exact A2.
    + intros a [<-|H] H'; [tauto|]. apply (A3 a H H').
Qed.
Lemma nodup_flat {A B} (f : A -> list B) : forall l, NoDup (flat_map f l) ->
  (forall x, In x l -> NoDup (f x)) /\ forall x y a, In x l -> In y l -> In a (f x) -> In a (f y) -> x = y.
Proof.
  induction l as [|z l IH]; cbn [flat_map].
  - intros _. split; [intros x []|intros x y a []].
  - intros N. apply nodup_app_l in N. destruct N as (N1 & N2 & N3). destruct (IH N2) as (I1 & I2). split.
    + intros x [<-|H]; auto.
    + intros x y a [<-|H] [<-|H'] Ha Ha'; auto.
      * exfalso. apply (N3 a Ha). apply in_flat_map. eauto.
      * exfalso. apply (N3 a Ha'). apply in_flat_map. eauto.
      * eapply I2; eauto.
Qed.
Lemma map_flat {A} (l : list A) (f : A -> list (Z * obj)) : map fst (flat_map f l) = flat_map (fun x => map fst (f x)) l.
Proof. induction l as [|x l IH]; [reflexivity|]. cbn [flat_map]. rewrite map_app, IH. reflexivity. Qed.
Lemma repeats_nodup l : repeats l = false -> NoDup l.
Proof.
  induction l as [|n l IH]; cbn [repeats]; [constructor|]. intros H. apply orb_false_iff in H. destruct H as [H1 H2].
  constructor; [|apply IH; exact H2]. intros Hi. assert (X : existsb (bytes_eqb n) l = true).
  { apply existsb_exists. exists n. split; [exact Hi|]. apply bytes_eqb_eq. reflexivity. }
  congruence.
Qed.
Lemma last_of_in {A} n (x : A) l : NoDup (map fst l) -> In (n, x) l -> last_of n l = Some x.
Proof.
  intros N Hi. unfold last_of. assert (F : filter (fun y => bytes_eqb (fst y) n) l = [(n, x)]).
  { induction l as [|[m y] l IH]; [destruct Hi|]. cbn [map fst] in N. inversion N as [|? ? Hm N']; subst. cbn [filter fst].
    destruct Hi as [Hi|Hi].
    - injection Hi as -> ->. destruct (bytes_eqb n n) eqn:E; [|apply not_true_iff_false in E; exfalso; apply E; apply bytes_eqb_eq; reflexivity].
      f_equal. clear - Hm. induction l as [|[k z] l IH]; [reflexivity|]. cbn [filter fst].
      destruct (bytes_eqb k n) eqn:E. { apply bytes_eqb_eq in E. subst k. exfalso. apply Hm. left. reflexivity. }
      apply IH. intros H. apply Hm. right. exact H.
    - destruct (bytes_eqb m n) eqn:E. { apply bytes_eqb_eq in E. subst m. exfalso. apply Hm. apply (in_map fst) in Hi. exact Hi. }
      apply IH; assumption. }
  rewrite F. reflexivity.
Qed.

Record as_read (e : event) (h : heap) : Prop := mkAR {
  ar_sm : sm_ok (ev_cols e);
  ar_elems : forall n c, In (n, c) (ev_cols e) -> Z.testbit (c_flag c) 18 = false ->
     NoDup (c_elems c) /\ forall a, In a (c_elems c) -> a <> 0 /\ h a <> None;
  ar_one : forall n c n' c' a, In (n, c) (ev_cols e) -> In (n', c') (ev_cols e) -> Z.testbit (c_flag c) 18 = false ->
     Z.testbit (c_flag c') 18 = false -> In a (c_elems c) -> In a (c_elems c') -> n = n';
  ar_all : forall a, h a <> None -> exists n c, In (n, c) (ev_cols e) /\ Z.testbit (c_flag c) 18 = false /\ In a (c_elems c) }.

Lemma sm_ok_names {V W} (m : list (bytes * V)) (m' : list (bytes * W)) : map fst m = map fst m' -> sm_ok m -> sm_ok m'.
Proof. apply EventProofs.sm_ok_keys. Qed.

Lemma assoc_none {V} k (l : list (Z * V)) : assoc k l <> None <-> In k (map fst l).
Proof.
  induction l as [|[m v] l IH]; cbn [assoc map fst]; [split; [congruence|intros []]|].
  destruct (Z.eqb_spec k m) as [->|N]; [split; [left; reflexivity|discriminate]|]. rewrite IH. split; [right; assumption|intros [E|H]; [congruence|exact H]].
Qed.

Lemma record_as_read srt data e0 next e h next' : 0 < next -> all_empty (ev_cols e0) -> sm_ok (ev_cols e0) ->
  read_event_record srt data e0 next = Ok (e, h, next') -> as_read e h.
Proof.
  intros Hn HE SM. unfold read_event_record.
  destruct (read_blocks data (coll_handlers srt (ev_cols e0)) next) as [[[out at_] n2]|x|u] eqn:E; cbn [bind]; try discriminate.
  destruct (repeats (map fst out)) eqn:RP; [discriminate|]. apply repeats_nodup in RP.
  unfold read_blocks in E. pose proof (blocks_subset _ _ _ _ _ _ _ _ _ _ E) as SB. apply blocks_fresh in E; [|lia].
  destruct E as (((FR & ND) & FO) & _). rewrite Forall_forall in FO, SB, FR.
  set (g := reloc_ptr at_).
  intros X. injection X as <- <- <-.
  set (out' := map (fun x => (fst x, reloc_rcoll at_ (snd x))) out).
  set (objs := flat_map (fun x => rc_objs (snd x)) out').
  assert (Eo : map fst objs = flat_map (fun x => map fst (rc_objs (snd x))) out).
  { unfold objs, out'. rewrite flat_map_flat.
    exact (eq_trans (flat_map_map_fst (fun x : bytes * rcoll => rc_objs (snd x)) (map_refs g) out) (map_flat out _)). }
  rewrite map_flat in ND. destruct (nodup_flat _ _ ND) as [ND1 ND2].
  assert (NDO : NoDup (map fst out')). { unfold out'. rewrite map_map. cbn [fst]. exact RP. }
  assert (HH : forall a, heap_of objs a <> None <-> exists x, In x out /\ In a (map fst (rc_objs (snd x)))).
  { intros a. unfold heap_of. rewrite assoc_none, Eo, in_flat_map. reflexivity. }
  assert (CC : forall n c, In (n, c) (filled (ev_cols e0) out') -> Z.testbit (c_flag c) 18 = false ->
             c_elems c = [] \/ exists rc, In (n, rc) out /\ c_elems c = map fst (rc_objs rc)).
  { intros n c Hi Hb. unfold filled in Hi. apply in_map_iff in Hi. destruct Hi as ([m c0] & Eq & Hi). cbn [fst snd] in Eq.
    injection Eq as -> <-. destruct (last_of n out') as [rc|] eqn:L.
    2:{ left. apply (HE _ Hi). }
    right. apply last_of_some in L. unfold out' in L. apply in_map_iff in L. destruct L as ([m rc0] & EqL & L). cbn [fst snd] in EqL.
    injection EqL as -> <-. exists rc0. split; [exact L|]. cbn [c_flag c_elems] in *.
    change (bit_set (rc_flag (reloc_rcoll at_ rc0)) BITSubset = false) in Hb. unfold reloc_rcoll in Hb |- *. cbn [rc_flag rc_elems] in *.
    rewrite Hb. destruct (FO _ L) as (c' & ty & _ & _ & _ & El). apply El. exact Hb. }
  constructor; cbn [ev_cols].
  - eapply sm_ok_names; [|exact SM]. unfold filled. rewrite map_map. reflexivity.
  - intros n c Hi Hb. destruct (CC n c Hi Hb) as [->|(rc & L & ->)]; [split; [constructor|intros a []]|]. split.
    + apply (ND1 _ L).
    + intros a Ha. split.
      * assert (In a (map fst (flat_map (fun x => rc_objs (snd x)) out))). { rewrite map_flat. apply in_flat_map. eauto. }
        apply in_map_iff in H. destruct H as (ao & <- & H). specialize (FR _ H). lia.
      * apply HH. eauto.
  - intros n c n' c' a Hi Hi' Hb Hb' Ha Ha'.
    destruct (CC n c Hi Hb) as [Ec|(rc & L & Ec)]; rewrite Ec in Ha; [destruct Ha|].
    destruct (CC n' c' Hi' Hb') as [Ec'|(rc' & L' & Ec')]; rewrite Ec' in Ha'; [destruct Ha'|].
    pose proof (ND2 (n, rc) (n', rc') a L L' Ha Ha') as X. congruence.
  - intros a Ha. apply HH in Ha. destruct Ha as ([n rc] & L & Ha). cbn [snd] in Ha.
    assert (Hb : bit_set (rc_flag rc) BITSubset = false).
    { destruct (bit_set (rc_flag rc) BITSubset) eqn:B; [|reflexivity]. specialize (SB _ L B). cbn [snd] in SB. rewrite SB in Ha. destruct Ha. }
    destruct (FO _ L) as (c0 & ty & Hc & _ & _ & El). cbn [fst snd] in *.
    assert (LO : last_of n out' = Some (reloc_rcoll at_ rc)).
    { apply last_of_in; [exact NDO|]. unfold out'. apply in_map_iff. exists (n, rc). auto. }
    exists n, (mkColl (c_type c0) (rc_flag rc) (rc_par rc) (map fst (rc_objs rc))). split; [|split].
    + unfold filled. apply in_map_iff. exists (n, c0). split; [|exact Hc]. cbn [fst snd]. rewrite LO. unfold reloc_rcoll. cbn [rc_flag rc_par rc_elems].
      rewrite Hb, (El Hb). reflexivity.
    + exact Hb.
    + exact Ha.
Qed.

Lemma event_as_read srt ign names hdata edata next e h next' : 0 < next ->
  read_event srt ign names hdata edata next = Ok (e, h, next') -> as_read e h.
Proof.
  intros Hn. unfold read_event. destruct (read_header_record names hdata) as [e0| |] eqn:E0; cbn [bind]; try discriminate.
  apply read_header_empty in E0. destruct E0 as [HE SM].
  destruct (read_event_record srt edata e0 next) as [[[e1 h1] n1]| |] eqn:E1; cbn [bind]; try discriminate.
  destruct (post_process ign h1 e1) as [h2| |] eqn:E2; cbn [bind]; try discriminate. intros X. injection X as <- <- <-.
  apply record_as_read in E1; try assumption. apply sd_post in E2.
  constructor.
  - apply (ar_sm _ _ E1).
  - intros n c Hi Hb. destruct (ar_elems _ _ E1 n c Hi Hb) as [A B]. split; [exact A|]. intros a Ha. destruct (B a Ha) as [B1 B2].
    split; [exact B1|]. intros H. apply B2. apply E2. exact H.
  - apply (ar_one _ _ E1).
  - intros a Ha. apply (ar_all _ _ E1). intros H. apply Ha. apply E2. exact H.
Qed.

(** ** The rules of ownership hold *)
Lemma place_in (place : bytes -> addr) (cols : list (bytes * coll)) n c : In (n, c) (map (fun nc : bytes * coll => (fst nc, place (fst nc))) cols) <->
  In n (map fst cols) /\ c = place n.
Proof.
  rewrite !in_map_iff. split.
  - intros (nc & E & H). injection E as <- <-. split; [exists nc; auto|reflexivity].
  - intros ((nc & <- & H) & ->). exists nc. auto.
Qed.
Lemma name_coll (cols : list (bytes * coll)) n : In n (map fst cols) -> exists c, In (n, c) cols.
Proof. intros H. apply in_map_iff in H. destruct H as ([m c] & <- & H). exists c. exact H. Qed.

Lemma inv_as_read place parts e h s w : as_read e h -> in_memory place parts e h s -> owned_as_read s w -> inv s w.
Proof.
  intros R M W.
  assert (NM : forall n c, In (n, c) (o_cols s) <-> In n (map fst (ev_cols e)) /\ c = place n).
  { intros n c. rewrite (im_names _ _ _ _ _ M). apply place_in. }
  assert (SM : sm_ok (o_cols s)).
  { rewrite (im_names _ _ _ _ _ M). eapply sm_ok_names; [|apply (ar_sm _ _ R)]. rewrite map_map. reflexivity. }
  assert (CO : forall n c, In (n, c) (ev_cols e) -> o_mem s (place n) = Some (KColl (Z.testbit (c_flag c) 18) (c_elems c)) /\
                 In (n, place n) (o_cols s) /\ w (place n) = Some ByEvent).
  { intros n c Hi. assert (In (n, place n) (o_cols s)).
    { apply NM. split; [|reflexivity]. apply (in_map fst) in Hi. exact Hi. }
    split; [apply (im_colls _ _ _ _ _ M _ _ Hi)|]. split; [exact H|]. apply (or_colls _ _ W _ _ H). }
  assert (OB : forall a, h a <> None -> o_mem s a = Some (KObj (parts a)) /\ exists n c, In (n, c) (ev_cols e) /\
                 Z.testbit (c_flag c) 18 = false /\ In a (c_elems c) /\ w a = Some (ByColl (place n))).
  { intros a Ha. split; [apply (im_objs _ _ _ _ _ M _ Ha)|]. destruct (ar_all _ _ R _ Ha) as (n & c & Hi & Hb & He).
    exists n, c. destruct (CO _ _ Hi) as (C1 & C2 & _). rewrite Hb in C1. repeat split; auto. apply (or_elems _ _ W _ _ _ _ C2 C1 He). }
  assert (PA : forall a p, h a <> None -> In p (parts a) -> o_mem s p = Some KPart /\ w p = Some (ByObject a)).
  { intros a p Ha Hp. split; [apply (im_parts _ _ _ _ _ M _ _ Ha Hp)|]. destruct (OB _ Ha) as (O1 & n & c & Hi & Hb & He & _).
    destruct (CO _ _ Hi) as (C1 & C2 & _). rewrite Hb in C1. apply (or_parts _ _ W _ _ _ _ _ _ C2 C1 He O1 Hp). }
  assert (CASE : forall y, o_mem s y <> None ->
    (exists n c, In (n, c) (ev_cols e) /\ y = place n) \/ h y <> None \/ exists a, h a <> None /\ In y (parts a)).
  { intros y Hy. destruct (im_only _ _ _ _ _ M y Hy) as [(n & Hn & ->)|H]; [|right; exact H]. left.
    destruct (name_coll _ _ Hn) as (c & Hc). eauto. }
  assert (KC : forall y b es, o_mem s y = Some (KColl b es) -> exists n c, In (n, c) (ev_cols e) /\ y = place n /\ b = Z.testbit (c_flag c) 18 /\ es = c_elems c).
  { intros y b es Hy. destruct (CASE y) as [(n & c & Hi & ->)|[H|(a & Ha & Hp)]]; [congruence|..].
    - exists n, c. destruct (CO _ _ Hi) as (C1 & _). rewrite C1 in Hy. injection Hy as <- <-. auto.
    - destruct (OB _ H) as (O1 & _). congruence.
    - destruct (PA _ _ Ha Hp) as (O1 & _). congruence. }
  assert (KO : forall y ps, o_mem s y = Some (KObj ps) -> h y <> None /\ ps = parts y).
  { intros y ps Hy. destruct (CASE y) as [(n & c & Hi & ->)|[H|(a & Ha & Hp)]]; [congruence|..].
    - destruct (CO _ _ Hi) as (C1 & _). congruence.
    - destruct (OB _ H) as (O1 & _). split; [exact H|congruence].
    - destruct (PA _ _ Ha Hp) as (O1 & _). congruence. }
  assert (W0 : forall y, o_mem s y = None -> w y = None) by apply (or_none _ _ W).
  assert (WS : forall y k, w y = Some k -> o_mem s y <> None) by (intros y k Hy Hn; rewrite (W0 _ Hn) in Hy; discriminate).
  assert (GET : forall n c, sm_get n (o_cols s) = Some c -> In (n, c) (o_cols s)).
  { intros n c. apply sm_get_In. exact SM. }
  constructor.
  - intros y. split; [apply W0|]. intros Hw. destruct (o_mem s y) eqn:E; [|reflexivity]. exfalso.
    destruct (CASE y) as [(n & c0 & Hi & ->)|[H|(a & Ha & Hp)]]; [congruence|..].
    + destruct (CO _ _ Hi) as (_ & _ & C3). congruence.
    + destruct (OB _ H) as (_ & n & c0 & _ & _ & _ & C3). congruence.
    + destruct (PA _ _ Ha Hp) as (_ & C3). congruence.
  - apply (im_zero _ _ _ _ _ M).
  - intros o ps Ho. destruct (KO _ _ Ho) as [Ha ->]. apply (im_once _ _ _ _ _ M _ Ha).
  - intros o ps p Ho Hp. destruct (KO _ _ Ho) as [Ha ->]. destruct (PA _ _ Ha Hp). auto.
  - intros p o Hw. destruct (CASE p) as [(n & c & Hi & ->)|[H|(a & Ha & Hp)]]; [apply (WS _ _ Hw)|..].
    + destruct (CO _ _ Hi) as (_ & _ & C3). congruence.
    + destruct (OB _ H) as (_ & n & c & _ & _ & _ & C3). congruence.
    + destruct (PA _ _ Ha Hp) as (_ & C3). assert (a = o) by congruence. subst a. exists (parts o). split; [apply OB; exact Ha|exact Hp].
  - intros c es Hc. destruct (KC _ _ _ Hc) as (n & c0 & Hi & -> & Hb & ->). symmetry in Hb.
    destruct (ar_elems _ _ R _ _ Hi Hb) as [N _]. unfold not_null. apply NoDup_filter. exact N.
  - intros c es x Hc Hx _. destruct (KC _ _ _ Hc) as (n & c0 & Hi & -> & Hb & ->). symmetry in Hb.
    destruct (ar_elems _ _ R _ _ Hi Hb) as [_ N]. destruct (N _ Hx) as [_ Hh]. destruct (CO _ _ Hi) as (C1 & C2 & _). rewrite Hb in C1.
    split; [apply (or_elems _ _ W _ _ _ _ C2 C1 Hx)|]. right. exists (parts x). apply OB. exact Hh.
  - intros x c Hw. destruct (CASE x) as [(n & c0 & Hi & ->)|[H|(a & Ha & Hp)]]; [apply (WS _ _ Hw)|..].
    + destruct (CO _ _ Hi) as (_ & _ & C3). congruence.
    + destruct (OB _ H) as (_ & n & c0 & Hi & Hb & Hx & C3). assert (c = place n) by congruence. subst c.
      exists (c_elems c0). split; [|exact Hx]. rewrite <- Hb. apply (proj1 (CO _ _ Hi)).
    + destruct (PA _ _ Ha Hp) as (_ & C3). congruence.
  - exact SM.
  - intros n c Hg. apply GET in Hg. split; [apply (im_alive _ _ _ _ _ M)|]. right. apply (or_colls _ _ W _ _ Hg).
  - intros n n' c Hg Hg' _. apply GET in Hg, Hg'. apply NM in Hg, Hg'. destruct Hg as [H1 ->], Hg' as [H2 E].
    apply (im_apart _ _ _ _ _ M _ _ H1 H2 E).
  - intros c Hw. rewrite (im_taken _ _ _ _ _ M). split; [intros []|].
    destruct (CASE c) as [(n & c0 & Hi & ->)|[H|(a & Ha & Hp)]]; [apply (WS _ _ Hw)|..].
    + destruct (CO _ _ Hi) as (C1 & C2 & _). split; [|eauto]. exists n. apply sm_get_In; assumption.
    + destruct (OB _ H) as (_ & n & c0 & _ & _ & _ & C3). congruence.
    + destruct (PA _ _ Ha Hp) as (_ & C3). congruence.
Qed.

(** the owners exist *)
Definition owned_elems (e : event) : list addr :=
  flat_map (fun nc => if Z.testbit (c_flag (snd nc)) 18 then [] else c_elems (snd nc)) (ev_cols e).
Definition w_read (place : bytes -> addr) (parts : addr -> list addr) (e : event) (s : ostate) : owners := fun y =>
  match o_mem s y with
  | None => None
  | Some (KColl _ _) => Some ByEvent
  | Some (KObj _) => match find (fun nc => negb (Z.testbit (c_flag (snd nc)) 18) && existsb (Z.eqb y) (c_elems (snd nc))) (ev_cols e) with
                     | Some nc => Some (ByColl (place (fst nc))) | None => None end
  | Some KPart => match find (fun a => existsb (Z.eqb y) (parts a)) (owned_elems e) with Some a => Some (ByObject a) | None => None end
  end.
Lemma in_eqb y l : existsb (Z.eqb y) l = true <-> In y l.
Proof.
  rewrite existsb_exists. split; [intros (x & H & E); apply Z.eqb_eq in E; subst; exact H|intros H; exists y; split; [exact H|apply Z.eqb_refl]].
Qed.

Lemma w_read_ok place parts e h s : as_read e h -> in_memory place parts e h s -> owned_as_read s (w_read place parts e s).
Proof.
  intros R M.
  assert (EL : forall a, In a (owned_elems e) -> h a <> None).
  { intros a Ha. unfold owned_elems in Ha. apply in_flat_map in Ha. destruct Ha as ([n c] & Hi & Ha). cbn [snd] in Ha.
    destruct (Z.testbit (c_flag c) 18) eqn:B; [destruct Ha|]. apply (ar_elems _ _ R _ _ Hi B). exact Ha. }
  assert (CL : forall n c es, In (n, c) (o_cols s) -> o_mem s c = Some (KColl false es) ->
    exists c0, In (n, c0) (ev_cols e) /\ c = place n /\ Z.testbit (c_flag c0) 18 = false /\ es = c_elems c0).
  { intros n c es Hi Hm. rewrite (im_names _ _ _ _ _ M) in Hi. apply place_in in Hi. destruct Hi as [Hn ->].
    destruct (name_coll _ _ Hn) as (c0 & Hc). exists c0. rewrite (im_colls _ _ _ _ _ M _ _ Hc) in Hm. injection Hm as Hb <-. auto. }
  constructor.
  - intros n c Hi. rewrite (im_names _ _ _ _ _ M) in Hi. apply place_in in Hi. destruct Hi as [Hn ->]. destruct (name_coll _ _ Hn) as (c & Hc).
    unfold w_read. rewrite (im_colls _ _ _ _ _ M _ _ Hc). reflexivity.
  - intros n c es x Hi Hm Hx. destruct (CL _ _ _ Hi Hm) as (c0 & Hc & -> & Hb & ->).
    destruct (ar_elems _ _ R _ _ Hc Hb) as [_ Hh]. destruct (Hh _ Hx) as [_ Hh']. unfold w_read. rewrite (im_objs _ _ _ _ _ M _ Hh').
    match goal with |- context [find ?f ?l] => destruct (find f l) as [[n' c']|] eqn:F end.
    + apply find_some in F. destruct F as [Hc' F]. cbn [fst snd] in *. apply andb_true_iff in F. destruct F as [F1 F2].
      apply negb_true_iff in F1. apply in_eqb in F2. rewrite (ar_one _ _ R n c0 n' c' x); auto.
    + pose proof (find_none _ _ F _ Hc) as N. cbn [snd] in N. rewrite Hb in N. cbn [negb andb] in N.
      apply in_eqb in Hx. congruence.
  - intros n c es o ps p Hi Hm Ho Hp Hin. destruct (CL _ _ _ Hi Hm) as (c0 & Hc & -> & Hb & ->).
    destruct (ar_elems _ _ R _ _ Hc Hb) as [_ Hh]. destruct (Hh _ Ho) as [_ Hh']. rewrite (im_objs _ _ _ _ _ M _ Hh') in Hp. injection Hp as <-.
    unfold w_read. rewrite (im_parts _ _ _ _ _ M _ _ Hh' Hin).
    match goal with |- context [find ?f ?l] => destruct (find f l) as [a|] eqn:F end.
    + apply find_some in F. destruct F as [Ha F]. apply in_eqb in F. rewrite (im_other _ _ _ _ _ M a o p); auto.
    + assert (Hoo : In o (owned_elems e)). { unfold owned_elems. apply in_flat_map. exists (n, c0). split; [exact Hc|]. cbn [snd]. rewrite Hb. exact Ho. }
      pose proof (find_none _ _ F _ Hoo) as N. cbn beta in N. apply in_eqb in Hin. congruence.
  - intros y Hy. unfold w_read. rewrite Hy. reflexivity.
Qed.

Theorem read_program srt ign names hdata edata next e h next' place parts s : 0 < next ->
  read_event srt ign names hdata edata next = Ok (e, h, next') -> in_memory place parts e h s ->
  exists w, owned_as_read s w /\
    forall l w', follows s w l w' -> exists s', own_run s l = Ok s' /\ forall y, o_mem s' y <> None <-> w' y <> None.
Proof.
  intros Hn E M. apply event_as_read in E; [|exact Hn]. pose proof (w_read_ok _ _ _ _ _ E M) as W.
  exists (w_read place parts e s). split; [exact W|]. intros l w' F. pose proof (inv_as_read _ _ _ _ _ _ E M W) as Hinv.
  destruct (run_ok _ _ _ _ F Hinv) as (s' & E' & I'). exists s'. split; [exact E'|]. intros y. pose proof (i_live _ _ I' y). tauto.
Qed.

Theorem read_deleted srt ign names hdata edata next e h next' place parts s : 0 < next ->
  read_event srt ign names hdata edata next = Ok (e, h, next') -> in_memory place parts e h s ->
  exists s', own_do s O_deleteEvent = Ok s' /\ forall y, o_mem s' y = None.
Proof.
  intros Hn E M. apply event_as_read in E; [|exact Hn]. pose proof (w_read_ok _ _ _ _ _ E M) as W.
  pose proof (inv_as_read _ _ _ _ _ _ E M W) as Hinv. set (w := w_read place parts e s) in *.
  destruct (delete_event_ok s w Hinv) as (m' & Ed & P).
  exists (mkO m' [] [] false). split.
  { cbn [own_do]. unfold on_event. rewrite (im_alive _ _ _ _ _ M), Ed. reflexivity. }
  intros y. cbn [o_mem]. rewrite P. destruct (is_owner is_event w y) eqn:Ow; [reflexivity|]. apply (i_live _ _ Hinv).
  destruct (w y) as [k|] eqn:Wy; [|reflexivity]. exfalso.
  assert (NU : forall z, w z <> Some ByUser).
  { intros z. unfold w, w_read. destruct (o_mem s z) as [[| |]|]; try discriminate;
      match goal with |- context [find ?f ?l] => destruct (find f l) end; discriminate. }
  assert (WC : forall x c, w x = Some (ByColl c) -> w c = Some ByEvent).
  { intros x c Hx. destruct (bycoll_owner _ _ _ _ Hinv Hx) as [X|X]; [destruct (NU _ X)|exact X]. }
  unfold is_owner in Ow. cbn [chain] in Ow. rewrite Wy in Ow. destruct k as [| |c|o].
  - apply (NU _ Wy).
  - discriminate Ow.
  - rewrite (WC _ _ Wy) in Ow. discriminate Ow.
  - destruct (byobj_owner _ _ _ _ Hinv Wy) as [X|[c X]]; [destruct (NU _ X)|]. rewrite X, (WC _ _ X) in Ow. discriminate Ow.
Qed.
