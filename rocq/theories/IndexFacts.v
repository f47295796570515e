(** * Facts about the index for the property theorems *)

From Coq Require Import Sorted.
From Verif Require Import Bytes StrMap SioModel SioProofs SioRecord SioRead SioFrame SioSpec Ieee ObjModel ObjSpec ObjProofs ObjCalls CollSpec
  EventModel EventSpec EventProofs IndexModel IndexSpec IndexProofs FileModel FileFrame IndexFile.

Ltac relia :=
  repeat match goal with
  | x : (runevt * Z)%type |- _ => destruct x as [[? ?] ?]
  | x : (Z * Z * Z)%type |- _ => destruct x as [[? ?] ?]
  | H : same_key _ _ |- _ => destruct H as [H|H]
  | H : re_lt _ _ = true |- _ => apply re_lt_spec in H
  end; cbn [fst snd] in *;
  repeat match goal with H : (_, _) = (_, _) |- _ => injection H; clear H; intros; subst end; lia.

(** ** The order *)

Lemma order_facts :
  (forall a, re_lt a a = false) /\
  (forall a b c, re_lt a b = true -> re_lt b c = true -> re_lt a c = true) /\
  (forall a b c, re_lt a b = false -> re_lt b a = false -> re_lt b c = false -> re_lt c b = false ->
     re_lt a c = false /\ re_lt c a = false) /\
  (forall a b, snd a < 0 -> 0 <= snd b -> re_lt a b = true) /\
  (forall a b, 0 <= snd a -> 0 <= snd b -> (re_lt a b = true <-> evt_lt a b)) /\
  (forall a b, snd a < 0 -> snd b < 0 -> (re_lt a b = true <-> fst a < fst b)).
Proof.
  split; [exact re_lt_irrefl|]. split; [exact re_lt_trans|]. split.
  - intros a b c H1 H2 H3 H4. apply re_same. eapply same_trans; apply re_same; eauto.
  - split; [|split]; intros a b Ha Hb; rewrite re_lt_spec; unfold evt_lt; lia.
Qed.

Lemma listing l : Forall entry_ok l ->
  exists rs es, runs_of (index_of l) = Ok rs /\ events_of (index_of l) = Ok es /\
    StronglySorted Z.lt rs /\ StronglySorted evt_lt es /\
    (forall r, In r rs <-> exists e, In e l /\ fst (fst e) = r /\ snd (fst e) < 0) /\
    (forall x, In x es <-> exists e, In e l /\ fst e = x /\ 0 <= snd x) /\
    rm_nrun (index_of l) = Zlen rs /\ rm_nevt (index_of l) = Zlen es.
Proof.
  intros F. pose proof (index_of_ok l F) as Hm. pose proof (remap_len _ Hm) as Hlen. pose proof (ro_sorted _ Hm) as Hs.
  assert (Hn : 0 <= rm_nevt (index_of l)) by (rewrite (ro_nevt _ Hm); apply Zlen_nonneg).
  assert (HF : forall k, (exists e', In e' (rm_map (index_of l)) /\ same_key (fst e') k) <-> (exists e, In e l /\ same_key (fst e) k))
    by (intros k; apply index_of_mem; exact F).
  exists (map (fun e => fst (fst e)) (negs (rm_map (index_of l)))), (map fst (nons (rm_map (index_of l)))).
  split; [|split; [|split; [|split; [|split; [|split; [|split]]]]]].
  - unfold runs_of. replace (_ <? _) with false by lia. rewrite (remap_run_list _ Hm). reflexivity.
  - unfold events_of. replace (_ <? _) with false by lia. rewrite (remap_evt_list _ Hm). reflexivity.
  - refine (SS_map _ _ _ _ _ (sorted_filter _ _ Hs)). intros [[ra ea] pa] [[rb eb] pb] Ha Hb H. apply filter_In in Ha, Hb. apply re_lt_spec in H. cbn [fst snd] in *. lia.
  - refine (SS_map _ _ _ _ _ (sorted_filter _ _ Hs)). intros [[ra ea] pa] [[rb eb] pb] Ha Hb H. apply filter_In in Ha, Hb. apply re_lt_spec in H. unfold evt_lt. cbn [fst snd] in *. lia.
  - intros r. rewrite in_map_iff. split.
    + intros (e & <- & He). unfold negs in He. apply filter_In in He. destruct He as [He Hneg].
      destruct (proj1 (HF (fst e))) as (e' & He' & Hk); [exists e; split; [exact He|apply same_refl]|].
      exists e'. split; [exact He'|]. relia.
    + intros (e & He & <- & Hneg). destruct (proj2 (HF (fst e))) as (e' & He' & Hk); [exists e; split; [exact He|apply same_refl]|].
      exists e'. unfold negs. rewrite filter_In. split; [relia|split; [exact He'|relia]].
  - intros x. rewrite in_map_iff. split.
    + intros (e & <- & He). unfold nons in He. apply filter_In in He. destruct He as [He Hneg].
      destruct (proj1 (HF (fst e))) as (e' & He' & Hk); [exists e; split; [exact He|apply same_refl]|].
      exists e'. split; [exact He'|]. split; [destruct Hk as [Hk|Hk]; [exact Hk|relia]|relia].
    + intros (e & He & <- & Hneg). destruct (proj2 (HF (fst e))) as (e' & He' & Hk); [exists e; split; [exact He|apply same_refl]|].
      exists e'. unfold nons. rewrite filter_In. split; [destruct Hk as [Hk|Hk]; [exact Hk|relia]|split; [exact He'|relia]].
  - rewrite (ro_nrun _ Hm). unfold Zlen. rewrite map_length. reflexivity.
  - rewrite (ro_nevt _ Hm). unfold Zlen. rewrite map_length. reflexivity.
Qed.

(** ** The index record *)

Lemma index_record_read base tail raw l : Forall entry_ok l -> covers (rm_map (index_of l)) -> Zlen (rm_map (index_of l)) < 2 ^ 27 ->
  usable_buf raw ->
  exists w o' raw', write_index (index_of l) = Ok w /\
    put_record (mkO (base ++ tail) (Zlen base)) raw index_record [mkWB index_record cur_vers w] = Ok (o', raw', Zlen base) /\
    forall uncomp g, mg_map g = no_remap ->
    exists s' g', at_position (Zlen base) (read_index_record uncomp) (open_ifs (o_data o')) g = (Ok true, s', g') /\
      mg_map g' = index_of l /\
      forall k, key_ok k -> rm_pos (mg_map g') k = match last_position k l with Some p => p | None => -1 end.
Proof.
  intros F Hc Hlen Hraw. pose proof (index_of_ok l F) as Hm.
  destruct (index_roundtrip _ Hm ltac:(unfold vec_len; lia) Hc) as (w & Ew & Hw & Rw). pose proof (index_size _ _ Ew) as Hsz.
  destruct (put_plain index_record read_index w (fold_left (fun m e => rm_add m (fst e) (snd e)) (rm_map (index_of l)))
              (mkO (base ++ tail) (Zlen base)) raw) as (ix & raw1 & E1 & U1 & P1 & N1 & S1 & r1 & D1 & R1); try assumption; try reflexivity.
  { vm_compute. congruence. } { intros i r st. apply Rw. } { unfold two32. lia. }
  exists w. do 2 eexists. split; [exact Ew|]. split; [exact E1|]. intros uncomp g Hg.
  assert (Hr : rec_at (s_data (open_ifs (o_data (o_write (mkO (base ++ tail) (Zlen base)) (f_bytes ix))))) (Zlen base) ix).
  { destruct (o_state_write _ _ _ _ (f_bytes ix) (o_state_start base tail)) as [Hd _]. cbn [open_ifs s_data]. rewrite Hd. cbn [app].
    eexists base, _. split; reflexivity. }
  rewrite (index_at uncomp _ (Zlen base) ix (rm_map (index_of l)) g); [|split; reflexivity| |exact Hr].
  - do 2 eexists. split; [reflexivity|]. cbn [mg_map]. rewrite Hg, (rebuild _ Hm). split; [reflexivity|].
    intros k Hk. unfold rm_pos. rewrite re_norm by exact Hk. rewrite (index_of_find l k F). reflexivity.
  - split; [exact P1|]. split; [exact N1|]. exact R1.
Qed.

(** ** When the choice of the writer covers all entries *)

Lemma sorted_last m e d : sorted m -> In e m -> e = last m d \/ re_lt (fst e) (fst (last m d)) = true.
Proof.
  intros H. induction H as [|x m Hs IH Hf]; [intros []|]. intros [<-|Hi].
  - destruct m as [|y m]; [left; reflexivity|]. right. rewrite Forall_forall in Hf. apply Hf. 
    change (last (x :: y :: m) d) with (last (y :: m) d). apply last_in. discriminate.
  - destruct m as [|y m]; [destruct Hi|]. change (last (x :: y :: m) d) with (last (y :: m) d). apply IH. exact Hi.
Qed.

(** every run header has an event of its run and every event a run header; positions are below 2 GB *)
Definition ordinary (l : list (runevt * Z)) : Prop :=
  (forall e, In e l -> 0 <= fst (fst e) < 2 ^ 31 /\ 0 <= snd e < 2 ^ 31) /\
  (forall e, In e l -> snd (fst e) < 0 -> exists e', In e' l /\ 0 <= snd (fst e') /\ fst (fst e') = fst (fst e)) /\
  (forall e, In e l -> 0 <= snd (fst e) -> exists e', In e' l /\ snd (fst e') < 0 /\ fst (fst e') = fst (fst e)).

Lemma ordinary_covers_map m : sorted m -> ordinary m -> covers m.
Proof.
  intros Hs (H1 & H2 & H3). destruct m as [|f m]; [exact I|]. cbn [covers].
  set (z := last (f :: m) f).
  assert (Hz : In z (f :: m)) by (apply last_in; discriminate).
  assert (Hfi : In f (f :: m)) by (left; reflexivity).
  assert (Hmin : forall e, In e (f :: m) -> e = f \/ re_lt (fst f) (fst e) = true).
  { intros e [<-|He]; [left; reflexivity|]. right. inversion Hs as [|? ? _ Hf]; subst. rewrite Forall_forall in Hf. apply Hf. exact He. }
  assert (Hmax : forall e, In e (f :: m) -> e = z \/ re_lt (fst e) (fst z) = true) by (intros e He; apply sorted_last; assumption).
  assert (Hfn : snd (fst f) < 0).
  { destruct (Z.ltb_spec (snd (fst f)) 0) as [|Hp]; [assumption|]. destruct (H3 f Hfi Hp) as (e & He & Hn & _).
    destruct (Hmin e He) as [->|L]; [exact Hn|]. relia. }
  assert (Hzn : 0 <= snd (fst z)).
  { destruct (Z.ltb_spec (snd (fst z)) 0) as [Hp|]; [|assumption]. destruct (H2 z Hz Hp) as (e & He & Hn & _).
    destruct (Hmax e He) as [->|L]; [exact Hn|]. relia. }
  assert (Hb : forall e, In e (f :: m) -> fst (fst f) <= fst (fst e) <= fst (fst z)).
  { intros e He. split.
    - destruct (Z.ltb_spec (snd (fst e)) 0) as [Hp|Hp].
      + destruct (Hmin e He) as [->|L]; [lia|]. relia.
      + destruct (H3 e He Hp) as (e' & He' & Hn & <-). destruct (Hmin e' He') as [->|L]; [lia|]. relia.
    - destruct (Z.ltb_spec (snd (fst e)) 0) as [Hp|Hp].
      + destruct (H2 e He Hp) as (e' & He' & Hn & <-). destruct (Hmax e' He') as [->|L]; [lia|]. relia.
      + destruct (Hmax e He) as [->|L]; [lia|]. relia. }
  pose proof (H1 f Hfi) as Bf.
  split; [|split; [|split]].
  - intros E e He. specialize (Hb e He). lia.
  - intros _ e He. specialize (Hb e He). pose proof (H1 e He). unfold int32. lia.
  - intros _ e He. pose proof (H1 e He). unfold int32. lia.
  - intros e He. pose proof (H1 e He). unfold int64. lia.
Qed.

Lemma last_position_in k (l : list (runevt * Z)) : forall r, fold_left (fun (r : option Z) (e : runevt * Z) => if same_keyb (fst e) k then Some (snd e) else r) l r = r \/
  exists e, In e l /\ same_key (fst e) k /\ fold_left (fun (r : option Z) (e : runevt * Z) => if same_keyb (fst e) k then Some (snd e) else r) l r = Some (snd e).
Proof.
  induction l as [|e l IH]; intros r; cbn [fold_left]; [left; reflexivity|].
  destruct (IH (if same_keyb (fst e) k then Some (snd e) else r)) as [E|(e' & Hi & Hk & E)].
  - destruct (same_keyb (fst e) k) eqn:Es; [|left; exact E]. right. exists e. split; [left; reflexivity|]. split; [apply same_keyb_iff; exact Es|exact E].
  - right. exists e'. split; [right; exact Hi|]. split; assumption.
Qed.

Lemma ordinary_covers l : Forall entry_ok l -> ordinary l -> covers (rm_map (index_of l)).
Proof.
  intros F (H1 & H2 & H3). pose proof (index_of_ok l F) as Hm. apply ordinary_covers_map; [apply (ro_sorted _ Hm)|].
  assert (HF : forall k, (exists e', In e' (rm_map (index_of l)) /\ same_key (fst e') k) <-> (exists e, In e l /\ same_key (fst e) k))
    by (intros k; apply index_of_mem; exact F).
  assert (Hback : forall e, In e (rm_map (index_of l)) -> exists e', In e' l /\ same_key (fst e') (fst e) /\ snd e = snd e').
  { intros e He. pose proof (find_in_sorted e _ (ro_sorted _ Hm) He) as E. rewrite (index_of_find l (fst e) F) in E. unfold last_position in E.
    destruct (last_position_in (fst e) l None) as [E'|(e' & Hi & Hk & E')]; rewrite E in E'; [discriminate|]. exists e'. split; [exact Hi|]. split; [exact Hk|congruence]. }
  split; [|split].
  - intros e He. destruct (Hback e He) as (e' & Hi & Hk & ->). specialize (H1 e' Hi). relia.
  - intros e He Hn. destruct (Hback e He) as (e' & Hi & Hk & _).
    destruct (H2 e' Hi) as (e2 & Hi2 & Hn2 & Hr); [relia|].
    destruct (proj2 (HF (fst e2))) as (e3 & Hi3 & Hk3); [exists e2; split; [exact Hi2|apply same_refl]|].
    exists e3. split; [exact Hi3|]. relia.
  - intros e He Hn. destruct (Hback e He) as (e' & Hi & Hk & _).
    destruct (H3 e' Hi) as (e2 & Hi2 & Hn2 & Hr); [relia|].
    destruct (proj2 (HF (fst e2))) as (e3 & Hi3 & Hk3); [exists e2; split; [exact Hi2|apply same_refl]|].
    exists e3. split; [exact Hi3|]. relia.
Qed.

(** ** The random access record *)

Lemma access_record_read base raw a : racc_ok a -> usable_buf raw ->
  exists o' raw', put_record (mkO base (Zlen base)) raw access_record [mkWB access_record cur_vers (write_racc a)] = Ok (o', raw', Zlen base) /\
    firstn (length base) (o_data o') = base /\ Zlen (o_data o') = Zlen base + access_size /\
    forall g, exists s' g', at_position (- access_size) read_access (open_ifs (o_data o')) g = (Ok true, s', g') /\
      mg_list g' = mg_list g ++ [a] /\ mg_map g' = mg_map g.
Proof.
  intros Ha Hraw.
  destruct (put_plain access_record (fun _ : unit => read_racc) (write_racc a) (fun _ => a) (mkO base (Zlen base)) raw)
    as (f & raw'' & E & U' & P & N & S & r & D & R); try assumption; try reflexivity.
  { vm_compute. congruence. } { apply racc_data. } { intros _ r st. apply racc_reads. exact Ha. }
  exists (o_write (mkO base (Zlen base)) (f_bytes f)), raw''. split; [exact E|].
  pose proof (o_state_write base [] [] (mkO base (Zlen base)) (f_bytes f)) as Ho.
  assert (H0 : o_state base [] [] (mkO base (Zlen base))) by (split; cbn [o_data o_pos app]; [rewrite skipn_nil, app_nil_r; reflexivity|rewrite Zlen_nil; lia]).
  specialize (Ho H0). cbn [app] in Ho. destruct Ho as [Hd _]. rewrite skipn_nil, app_nil_r in Hd. rewrite Hd.
  assert (Hs : f_size f = access_size) by (rewrite S; reflexivity).
  split; [apply firstn_app_exact; reflexivity|]. split; [rewrite Zlen_app, f_bytes_len, Hs; reflexivity|].
  intros g. rewrite (access_at_end _ base f a g); [| split; reflexivity| |reflexivity].
  - do 2 eexists. split; [reflexivity|]. split; reflexivity.
  - split; [exact P|]. split; [exact N|]. split; [exact Hs|exact (R tt)].
Qed.
