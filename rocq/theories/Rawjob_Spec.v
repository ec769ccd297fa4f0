(* What the scripts that build raw binary files should do. *)
From Coq Require Import String Ascii.
From Verif Require Import Base.
Open Scope string_scope.
Open Scope list_scope.

(* The operations of rawbinary_generation.json, in their order. *)
Definition GENERATED : list string := [
  "preparecorrelationranges_insitu_land_Tmin"; "preparecorrelationranges_insitu_land_Tmax"; "preparecorrelationranges_insitu_ocean_Tmean";
  "preparecorrelationranges_surfaceairmodel_ice_Tmin"; "preparecorrelationranges_surfaceairmodel_ice_Tmax"; "preparecorrelationranges_surfaceairmodel_ice_Tmean";
  "preparecorrelationranges_surfaceairmodel_land_Tmin"; "preparecorrelationranges_surfaceairmodel_land_Tmax"; "preparecorrelationranges_surfaceairmodel_ocean_Tmean";
  "preparelocationlookup_satellite"; "preparelocationlookup_insitu_land";
  "preparedailyfixed_insitu_land_Tmin"; "preparedailyfixed_insitu_land_Tmax"; "preparedailymobile_insitu_ocean_Tmean";
  "preparedailyfixed_surfaceairmodel_ice_Tmin"; "preparedailyfixed_surfaceairmodel_ice_Tmax"; "preparedailyfixed_surfaceairmodel_ice_Tmean";
  "preparedailyfixed_surfaceairmodel_land_Tmin"; "preparedailyfixed_surfaceairmodel_land_Tmax"; "preparedailyfixed_surfaceairmodel_ocean_Tmean"].
(* The operations of rawbinary_locationpointers_generation.json. *)
Definition POINTERS_GENERATED : list string := [
  "preparelocationpointers_insitu_land_Tmin"; "preparelocationpointers_insitu_land_Tmax"; "preparelocationpointers_surfaceairmodel_ice_Tmin";
  "preparelocationpointers_surfaceairmodel_ice_Tmax"; "preparelocationpointers_surfaceairmodel_ice_Tmean"; "preparelocationpointers_surfaceairmodel_land_Tmin";
  "preparelocationpointers_surfaceairmodel_land_Tmax"; "preparelocationpointers_surfaceairmodel_ocean_Tmean"].

(* A name that is not taken for an option: it does not start with a dash, and there is one. *)
Definition plain_name (s : string) : Prop := s <> "" /\ forall r, s <> String "-" r.
(* A word that does not start a comment. *)
Definition no_comment (w : string) : Prop := forall r, w <> String "#" r.
(* A script without the lines that are comments as a whole. *)
Definition without_comment_lines (lines : list (list string)) : list (list string) :=
  filter (fun l => match l with String "#" _ :: _ => false | _ => true end) lines.
