(** * JobsSpec: several files converted into one HDF5 file *)
From Coq Require Import Sorting.Sorted.
From Verif Require Import Base Flt SeqFile H5 Schema Data Files StoreSpec LayoutSpec FileSpec DataSpec SifNameSpec Convert ConvertSpec AssemblySpec.
Open Scope string_scope.
Open Scope Z_scope.
Open Scope list_scope.

(** A file to convert: its name and the parts of the name, the prefix given with
    it, and what it is: the number of its superelement, its bytes, its records
    and the places of its hierarchy. *)
Record job := mkJob {
  j_name : string; j_fp : string; j_letter : string; j_no : list ascii; j_ext : string; j_prefix : string;
  j_kind : SeqFile.kind; j_id : Z; j_bytes : list ascii; j_segs : list seg; j_places : list place }.
(** The name of its data set. *)
Definition j_pre (usefp : bool) (j : job) : string := if usefp then (j_prefix j ++ j_fp j)%string else j_prefix j.
Definition j_top (usefp : bool) (j : job) : string := nm_of (j_pre usefp j) (j_letter j) (j_id j).
Definition no_slash (s : string) : Prop := ~ In "/"%char (s2l s).
Definition j_lower (j : job) : list place := lower_places (j_ext j) (j_places j).
Record job_ok (d : dir) (usefp : bool) (j : job) : Prop := {
  jo_name : sesam_name (s2l (j_name j)) (s2l (j_fp j), s2l (j_letter j), j_no j, s2l (j_ext j));
  jo_plain : no_extension (s2l (j_fp j));
  jo_seq : ~ sin_ext (s2l (j_ext j));
  jo_letter : In (j_letter j) ["R"; "T"; "L"] \/ j_letter j = "G" /\ j_lower j = [];
  jo_complete : complete (j_letter j) (j_segs j);
  jo_prefix : no_slash (j_prefix j);
  jo_file : file_in d (j_name j) = Some (j_bytes j);
  jo_parts : assembly d (j_fp j) (j_letter j) (j_ext j) (j_pre usefp j) (j_kind j) (j_id j) (j_bytes j) (j_segs j) (j_places j) }.

(** A superelement below the top whose file is there, and its name. *)
Definition has_sub (d : dir) (usefp : bool) (j : job) (p : place) (b : list ascii) (s : string) : Prop :=
  In p (j_lower j) /\ file_in d (lower_file (j_fp j) (j_ext j) p) = Some b /\
  lower_group (j_pre usefp j) (j_letter j) (j_id j) p = [j_top usefp j; s].
(** The files read for it, or found missing. *)
Definition j_events (d : dir) (j : job) : list event :=
  Read (j_name j) :: map (fun p => seen d (lower_file (j_fp j) (j_ext j) p)) (j_lower j).

(** A file with the data sets of these jobs, and no other, opened.  The keys: the
    names in alphabetical order, each followed by those of its superelements, also
    in alphabetical order. *)
Definition keys_of_jobs (d : dir) (usefp : bool) (l : list job) (ks : list string) : Prop :=
  exists parts : list (string * list string),
    ks = flat_map (fun p => fst p :: map (under (fst p)) (snd p)) parts /\
    StronglySorted str_lt (map fst parts) /\
    (forall n, In n (map fst parts) <-> exists j, In j l /\ n = j_top usefp j) /\
    forall n subs, In (n, subs) parts -> StronglySorted str_lt subs /\
      forall j, In j l -> n = j_top usefp j -> forall s, In s subs <-> exists p b, has_sub d usefp j p b s.
(** The data set of a top file. *)
Definition top_opened (usefp : bool) (h : h5) (es : list Files.entry) (j : job) : Prop :=
  exists pos kd o, get_data (j_top usefp j) es = Ok (kd, o) /\ top_pos (j_segs j) pos /\ opens_as (j_letter j) pos kd /\ d_open o = true /\
    d_group o = [j_top usefp j] /\ d_filetype o = j_letter j /\ d_seltyp o = Some (j_id j) /\
    first_seen (seg_names (j_segs j)) (d_names o) /\ tables h (d_group o) (j_segs j).
(** The data set of a superelement below it. *)
Definition sub_opened (usefp : bool) (h : h5) (es : list Files.entry) (j : job) (p : place) (b : list ascii) (s : string) : Prop :=
  exists kd o, get_data (under (j_top usefp j) s) es = Ok (kd, o) /\ below_as (j_letter j) (pl_level p) kd /\ d_open o = true /\
    d_group o = [j_top usefp j; s] /\ d_filetype o = j_letter j /\ d_seltyp o = Some (pl_type p) /\ (j_letter j = "R" -> d_index o = Some (pl_rep p)) /\
    d_file o = OData [j_top usefp j] /\
    forall bs segs, contents (j_kind j) b bs -> file_of [] (j_kind j) (pl_type p) true bs segs -> some_record segs ->
      first_seen (seg_names segs) (d_names o) /\ tables h (d_group o) segs.
Definition jobs_opened (d : dir) (usefp : bool) (h : h5) (l : list job) (es : list Files.entry) : Prop :=
  file_data h = Ok es /\ keys_of_jobs d usefp l (map key_of es) /\
  forall j, In j l -> top_opened usefp h es j /\ forall p b s, has_sub d usefp j p b s -> sub_opened usefp h es j p b s.
