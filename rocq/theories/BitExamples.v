(** * Encodings and cell ids for the examples *)

From Verif Require Import Bytes StrMap FlagModel FlagProofs BitModel BitSpec BitProofs BitParse BitFacts.

Definition ex_enc : bytes := str "layer:7,side:-2,x:32:-16,y:-16".
Definition ex_bits : bitfield := match bit_field ex_enc with Ok b => b | _ => no_fields end.
Lemma ex_bits_ok : bit_field ex_enc = Ok ex_bits.
Proof. vm_compute. reflexivity. Qed.
Definition ex_descr : list descr :=
  [mkDescr (str "layer") None 7 false; mkDescr (str "side") None 2 true;
   mkDescr (str "x") (Some 32) 16 true; mkDescr (str "y") None 16 true].
Lemma num1 d : 0 <= d <= 9 -> numeral [bZ (48 + d)] d.
Proof. apply numeral_one. Qed.
Lemma num2 a d : 0 <= a <= 9 -> 0 <= d <= 9 -> numeral [bZ (48 + a); bZ (48 + d)] (10 * a + d).
Proof. intros Ha Hd. exact (numeral_more [bZ (48 + a)] a d (numeral_one a Ha) Hd). Qed.
Lemma ex_describes s d width : good_name (d_name d) -> (d_signed d = true -> 1 <= d_width d) -> d_width d < 2 ^ 31 -> numeral width (d_width d) ->
  d_off d = None -> s = d_name d ++ [Init.Byte.x3a] ++ (if d_signed d then [Init.Byte.x2d] else []) ++ width -> describes s d.
Proof. intros H1 H2 H3 H4 H5 H6. split; [exact H1|]. split; [exact H2|]. split; [exact H3|]. exists width. split; [exact H4|]. rewrite H5. exact H6. Qed.
Lemma good_name_dec s : (if bytes_dec s [] then false else negb (existsb (fun c => if byte_dec c Init.Byte.x2c then true else if byte_dec c Init.Byte.x3a then true else false) s)) = true -> good_name s.
Proof.
  destruct (bytes_dec s []) as [|N]; [discriminate|]. intros H. apply negb_true_iff in H. split; [exact N|].
  assert (G : forall c, In c s -> c <> Init.Byte.x2c /\ c <> Init.Byte.x3a).
  { intros c Hc. destruct (byte_dec c Init.Byte.x2c) as [->|N1]; [|destruct (byte_dec c Init.Byte.x3a) as [->|N2]; [|split; assumption]];
      exfalso; (rewrite (proj2 (existsb_exists _ s)) in H; [discriminate|]); eexists; (split; [exact Hc|reflexivity]). }
  split; intros Hin; apply G in Hin; destruct Hin; congruence.
Qed.
Lemma ex_encoding : encoding ex_enc ex_descr.
Proof.
  change ex_enc with (str "layer:7" ++ [Init.Byte.x2c] ++ str "side:-2" ++ [Init.Byte.x2c] ++ str "x:32:-16" ++ [Init.Byte.x2c] ++ str "y:-16").
  unfold ex_descr. apply encoding_more; [| |discriminate].
  { apply (ex_describes _ _ (str "7")); [apply good_name_dec; vm_compute; reflexivity|discriminate|cbn; lia|apply (num1 7); lia|reflexivity|reflexivity]. }
  apply encoding_more; [| |discriminate].
  { apply (ex_describes _ _ (str "2")); [apply good_name_dec; vm_compute; reflexivity|cbn; lia|cbn; lia|apply (num1 2); lia|reflexivity|reflexivity]. }
  apply encoding_more; [| |discriminate].
  { split; [apply good_name_dec; vm_compute; reflexivity|]. split; [cbn; lia|]. split; [cbn; lia|]. exists (str "16"). split; [apply (num2 1 6); lia|].
    cbn [d_off]. split; [lia|]. exists (str "32"). split; [apply (num2 3 2); lia|reflexivity]. }
  apply encoding_one.
  apply (ex_describes _ _ (str "16")); [apply good_name_dec; vm_compute; reflexivity|cbn; lia|cbn; lia|apply (num2 1 6); lia|reflexivity|reflexivity].
Qed.
