From Coq Require Import Extraction ExtrOcamlBasic ExtrOcamlString ExtrOcamlNatInt ExtrOcamlZBigInt.
From Verif Require Import Base SeqFile LayoutSpec FileSpec Describe Survey.
Extraction "survey.ml" records_of content_of survey mesh_of refs_of noderes_of elemres_of.
