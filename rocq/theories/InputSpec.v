(** * Untrusted input: the places where reading can go wrong

    Stated on the bytes of the input, with the format of sio in mind: all numbers are words of four
    bytes, most significant first.  Nothing of the readers is used, only the type of the objects. *)

From Verif Require Import Bytes ObjModel.

(** the word [n] stands at offset [p] *)
Definition word_in (b : bytes) (p n : Z) : Prop :=
  exists pre w post, b = pre ++ w ++ post /\ Zlen pre = p /\ length w = 4%nat /\ n = unbe w.

(** the marker of blocks *)
Definition marker : Z := 3735928559.             (* 0xdeadbeef *)
(** something that looks like the header of a block stands at offset [p]: length, marker, version,
    length of the name *)
Record block_at (b : bytes) (p len vers name_len : Z) : Prop := {
  ba_len : word_in b p len;
  ba_marker : word_in b (p + 4) marker;
  ba_vers : word_in b (p + 8) vers;
  ba_name : word_in b (p + 12) name_len
}.

(** a block that claims to have length zero *)
Definition zero_block (b : bytes) : Prop := exists p v n, block_at b p 0 v n.
(** a block that claims to have a name of about four gigabytes: rounding its length up to a
    multiple of four overflows 32 bits *)
Definition long_name (b : bytes) : Prop :=
  exists p n, word_in b (p + 4) marker /\ word_in b (p + 12) n /\ 4294967293 <= n.
(** a block with the name [n] *)
Definition block_named (b : bytes) (p : Z) (n : bytes) : Prop :=
  word_in b (p + 4) marker /\ word_in b (p + 12) (Zlen n) /\ exists pre post, b = pre ++ n ++ post /\ Zlen pre = p + 16.
(** two blocks with the same name *)
Definition repeated_block (b : bytes) : Prop := exists p q n, p <> q /\ block_named b p n /\ block_named b q n.
(** a block of a format before version 1.3 *)
Definition old_block (b : bytes) : Prop :=
  exists p v, word_in b (p + 4) marker /\ word_in b (p + 8) v /\ v <= 1 * 65536 + 2.
(** a word that, taken as a number of elements of [size] bytes, overflows 32 bits *)
Definition overlong (size : Z) (b : bytes) : Prop :=
  exists p n, word_in b p n /\ n < 2147483648 /\ 4294967293 <= size * n.

(** the marker of records *)
Definition rmarker : Z := 2880293630.            (* 0xabadcafe *)
(** a record header with an impossible length: it holds the lengths of header and data, the marker
    and the options, and has at most 116 bytes *)
Definition bad_header (b : bytes) : Prop :=
  exists p hlen, word_in b p hlen /\ word_in b (p + 4) rmarker /\ ~ (16 <= hlen <= 116).
(** a record of four gigabytes *)
Definition huge_record (b : bytes) : Prop :=
  exists p hlen dlen, word_in b p hlen /\ word_in b (p + 4) rmarker /\ word_in b (p + 12) dlen /\
    4294967296 <= hlen + dlen + 3.

(** the part [sp] of [b] *)
Definition part_of (sp b : bytes) : Prop := exists pre post, b = pre ++ sp ++ post.

(** the data of a record in the file [b]: a part of the file, decompressed if necessary (into a buffer
    that can be larger) *)
Definition payload (uncomp : bytes -> option bytes) (b data : bytes) : Prop :=
  part_of data b \/ exists z d rest, part_of z b /\ uncomp z = Some d /\ data = d ++ rest.

(** the types of collections that can be read *)
Definition known_types : list bytes :=
  map str ["MCParticle"; "SimCalorimeterHit"; "RawCalorimeterHit"; "CalorimeterHit"; "SimTrackerHit";
           "TPCHit"; "TrackerRawData"; "TrackerData"; "TrackerPulse"; "TrackerHit"; "TrackerHitPlane";
           "TrackerHitZCylinder"; "Track"; "Cluster"; "ReconstructedParticle"; "LCRelation"; "Vertex";
           "LCStrVec"; "LCFloatVec"; "LCIntVec"; "LCGenericObject"]%string.
(** the types of objects that hold arrays whose length is stored, and the size of the elements *)
Definition array_types : list (bytes * Z) :=
  map (fun x => (str (fst x), snd x))
      [("TPCHit", 4); ("TrackerData", 4); ("Cluster", 4); ("TrackerRawData", 2); ("LCGenericObject", 8)]%string.

(** what can go wrong with the collections of the types [types] in the record [b] *)
Definition bad_collection (types : list bytes) (b : bytes) : Prop :=
  exists t, In t types /\
    (~ In t known_types
     \/ (exists size, In (t, size) array_types /\ overlong size b)
     \/ (t = str "ReconstructedParticle" /\ old_block b)).

(** a particle one of whose parents is no particle that was read *)
Definition orphan (h : Z -> option obj) : Prop :=
  exists a o p, h a = Some (OMC o) /\ In p (mc_parents o) /\ (p = 0 \/ forall o', h p <> Some (OMC o')).

(** ** The index for direct access *)

(** signed numbers of four and eight bytes at offset [p] *)
Definition int_in (b : bytes) (p n : Z) : Prop :=
  exists w, word_in b p w /\ n = if w <? 2147483648 then w else w - 4294967296.
Definition long_in (b : bytes) (p n : Z) : Prop :=
  exists pre w post, b = pre ++ w ++ post /\ Zlen pre = p /\ length w = 8%nat /\
    n = if unbe w <? 9223372036854775808 then unbe w else unbe w - 18446744073709551616.
(** An index: control word, first run, first position, number of entries; each entry has a run
    relative to the first one (unless bit 0 of the control word is set), an event number, and a
    position relative to the first one in four or eight bytes (bit 1).  The sum of the first run
    and the run of an entry overflows [int], or the sum of the positions overflows 64 bits. *)
Definition index_overflow (b : bytes) : Prop :=
  exists p control run base n i,
    int_in b p control /\ int_in b (p + 4) run /\ long_in b (p + 8) base /\ int_in b (p + 16) n /\ 0 <= i < n /\
    let one := Z.testbit control 0 in
    let long := Z.testbit control 1 in
    let wrun := if one then 0 else 4 in
    let entry := p + 20 + i * (wrun + 4 + (if long then 8 else 4)) in
    ((one = false /\ exists o, int_in b entry o /\ ~ (-2147483648 <= run + o < 2147483648))
     \/ exists off, (if long then long_in b (entry + wrun + 4) off else int_in b (entry + wrun + 4) off) /\
                    ~ (-9223372036854775808 <= off + base < 9223372036854775808)).
