From Coq Require Import Extraction ExtrOcamlBasic ExtrOcamlString ExtrOcamlNatInt ExtrOcamlZBigInt.
From Verif Require Import Base Flt SeqFile H5 Schema Parsers SifName Convert Data Files Struc Elem Trans Nd Hydro.
Extraction "model.ml" open_sif glob0 file_data hydro_init get_motion_raos get_excitationforce_raos get_meandrift get_horiz_meandrift get_matrix
  get_directions get_angular_freqs get_coords get_setnames get_elements get_noderesults Elem.get_elementresults.
