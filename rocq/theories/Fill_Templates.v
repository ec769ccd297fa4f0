(* The templates shipped with the system, as JSON values, and the settings that the command line of
   eustace/analysis/advanced_standard/examples/generate_json_descriptors.py:14-53 gives by default. *)
From Coq Require Import String.
From Verif Require Import Base Fill_Model.
Open Scope string_scope.
Open Scope list_scope.
Open Scope Z_scope.

(* src/roses/fullstace/advanced_standard/templates/advstd_operation_template.json *)
Definition shipped_operation : json :=
  JDict [("python_class", JStr "eumopps.catalogue.operation.Operation");
   ("name", JNull);
   ("runmodule", JDict [("python_function", JStr "eustace.analysis.advanced_standard.examples.moving_climatology.process_inputs");
     ("storage_climatology", JDict [("python_class", JStr "eustace.analysis.advanced_standard.components.storage_files.SpaceTimeComponentSolutionStorage_Files")]);
     ("storage_large_scale", JDict [("python_class", JStr "eustace.analysis.advanced_standard.components.storage_files.SpaceTimeComponentSolutionStorage_Files")]);
     ("storage_local", JDict [("python_class", JStr "eustace.analysis.advanced_standard.components.storage_files.SpatialComponentSolutionStorage_Files")]);
     ("inputsources", JList [JDict [("name", JStr "insitu_land");
        ("fixed_location_lookup_filename", JDict [("python_class", JStr "eumopps.catalogue.placeholder.InputFile"); ("datasetname", JStr "locationlookup_insitu_land")]);
        ("local_correlation_ranges_filenames", JDict [("Tmin", JDict [("python_class", JStr "eumopps.catalogue.placeholder.InputFile");
            ("datasetname", JStr "rawbinary_insitu_land_Tmin_correlationranges")]);
          ("Tmax", JDict [("python_class", JStr "eumopps.catalogue.placeholder.InputFile");
            ("datasetname", JStr "rawbinary_insitu_land_Tmax_correlationranges")])]);
        ("observable_filenames", JDict [("Tmin", JDict [("python_class", JStr "eumopps.catalogue.placeholder.InputFile");
            ("datasetname", JStr "rawbinary_insitu_land_Tmin");
            ("missing_data", JStr "allowed")]);
          ("Tmax", JDict [("python_class", JStr "eumopps.catalogue.placeholder.InputFile");
            ("datasetname", JStr "rawbinary_insitu_land_Tmax");
            ("missing_data", JStr "allowed")])])];
       JDict [("name", JStr "insitu_ocean");
        ("local_correlation_ranges_filenames", JDict [("Tmean", JDict [("python_class", JStr "eumopps.catalogue.placeholder.InputFile");
            ("datasetname", JStr "rawbinary_insitu_ocean_Tmean_correlationranges")])]);
        ("observable_filenames", JDict [("Tmean", JDict [("python_class", JStr "eumopps.catalogue.placeholder.InputFile");
            ("datasetname", JStr "rawbinary_insitu_ocean_Tmean");
            ("subsetindex", JNum 0);
            ("missing_data", JStr "allowed")])]);
        ("mobile_location_lookup_filenames", JDict [("Tmean", JDict [("python_class", JStr "eumopps.catalogue.placeholder.InputFile");
            ("datasetname", JStr "rawbinary_insitu_ocean_Tmean");
            ("subsetindex", JNum 1);
            ("missing_data", JStr "allowed")])])];
       JDict [("name", JStr "surfaceairmodel_land");
        ("fixed_location_lookup_filename", JDict [("python_class", JStr "eumopps.catalogue.placeholder.InputFile"); ("datasetname", JStr "locationlookup_satellite")]);
        ("local_correlation_ranges_filenames", JDict [("Tmin", JDict [("python_class", JStr "eumopps.catalogue.placeholder.InputFile");
            ("datasetname", JStr "rawbinary_surfaceairmodel_land_Tmin_correlationranges")]);
          ("Tmax", JDict [("python_class", JStr "eumopps.catalogue.placeholder.InputFile");
            ("datasetname", JStr "rawbinary_surfaceairmodel_land_Tmax_correlationranges")])]);
        ("observable_filenames", JDict [("Tmin", JDict [("python_class", JStr "eumopps.catalogue.placeholder.InputFile");
            ("datasetname", JStr "rawbinary_surfaceairmodel_land_Tmin");
            ("missing_data", JStr "allowed")]);
          ("Tmax", JDict [("python_class", JStr "eumopps.catalogue.placeholder.InputFile");
            ("datasetname", JStr "rawbinary_surfaceairmodel_land_Tmax");
            ("missing_data", JStr "allowed")])])];
       JDict [("name", JStr "surfaceairmodel_ocean");
        ("fixed_location_lookup_filename", JDict [("python_class", JStr "eumopps.catalogue.placeholder.InputFile"); ("datasetname", JStr "locationlookup_satellite")]);
        ("local_correlation_ranges_filenames", JDict [("Tmean", JDict [("python_class", JStr "eumopps.catalogue.placeholder.InputFile");
            ("datasetname", JStr "rawbinary_surfaceairmodel_ocean_Tmean_correlationranges")])]);
        ("observable_filenames", JDict [("Tmean", JDict [("python_class", JStr "eumopps.catalogue.placeholder.InputFile");
            ("datasetname", JStr "rawbinary_surfaceairmodel_ocean_Tmean");
            ("missing_data", JStr "allowed")])])];
       JDict [("name", JStr "surfaceairmodel_ice");
        ("fixed_location_lookup_filename", JDict [("python_class", JStr "eumopps.catalogue.placeholder.InputFile"); ("datasetname", JStr "locationlookup_satellite")]);
        ("local_correlation_ranges_filenames", JDict [("Tmin", JDict [("python_class", JStr "eumopps.catalogue.placeholder.InputFile");
            ("datasetname", JStr "rawbinary_surfaceairmodel_ice_Tmin_correlationranges")]);
          ("Tmean", JDict [("python_class", JStr "eumopps.catalogue.placeholder.InputFile");
            ("datasetname", JStr "rawbinary_surfaceairmodel_ice_Tmean_correlationranges")]);
          ("Tmax", JDict [("python_class", JStr "eumopps.catalogue.placeholder.InputFile");
            ("datasetname", JStr "rawbinary_surfaceairmodel_ice_Tmax_correlationranges")])]);
        ("observable_filenames", JDict [("Tmin", JDict [("python_class", JStr "eumopps.catalogue.placeholder.InputFile");
            ("datasetname", JStr "rawbinary_surfaceairmodel_ice_Tmin");
            ("missing_data", JStr "allowed")]);
          ("Tmean", JDict [("python_class", JStr "eumopps.catalogue.placeholder.InputFile");
            ("datasetname", JStr "rawbinary_surfaceairmodel_ice_Tmean");
            ("missing_data", JStr "allowed")]);
          ("Tmax", JDict [("python_class", JStr "eumopps.catalogue.placeholder.InputFile");
            ("datasetname", JStr "rawbinary_surfaceairmodel_ice_Tmax");
            ("missing_data", JStr "allowed")])])]]);
     ("time_index", JDict [("python_class", JStr "eustace.analysis.advanced_standard.examples.placeholder.AnalysisStepIndex")]);
     ("component_index", JNull);
     ("covariates_descriptor", JStr "/gws/nopw/j04/eustace/data/internal/climatology_covariates/covariates.json");
     ("insitu_biases", JNull);
     ("breakpoints_file", JStr "/gws/nopw/j04/eustace/data/internal/D1.7/daily/eustace_stations_global_R001127_daily_status.nc");
     ("global_biases", JNull);
     ("global_biases_group_list", JList [JStr "surfaceairmodel_ice_global";
       JStr "surfaceairmodel_land_global";
       JStr "surfaceairmodel_ocean_global"]);
     ("compute_uncertainties", JNull);
     ("method", JNull);
     ("compute_sample", JNull);
     ("sample_size", JNull);
     ("compute_prior_sample", JNull)]);
   ("step", JDict [("python_class", JStr "eumopps.catalogue.step.StepDaily"); ("start", JNull); ("end", JNull)]);
   ("newdatasets", JList [JDict [("python_class", JStr "eumopps.catalogue.dataset.CatalogueDataSet");
      ("name", JNull);
      ("subsets", JList [JDict [("python_class", JStr "eumopps.catalogue.dataset.CatalogueDataSubset");
         ("layout", JDict [("python_class", JStr "eumopps.catalogue.storage.DataStorageFiles"); ("patterns", JNull)])]])]])].

(* src/roses/fullstace/advanced_standard/templates/advstd_batch_operation_template.json *)
Definition shipped_batch_operation : json :=
  JDict [("python_class", JStr "eumopps.catalogue.operation.Operation");
   ("name", JNull);
   ("runmodule", JDict [("python_function", JStr "eustace.analysis.advanced_standard.examples.moving_climatology.process_inputs_batch");
     ("storage_climatology", JDict [("python_class", JStr "eustace.analysis.advanced_standard.components.storage_files_batch.SpaceTimeComponentSolutionStorageBatched_Files");
       ("keep_in_memory", JNum 1)]);
     ("storage_large_scale", JDict [("python_class", JStr "eustace.analysis.advanced_standard.components.storage_files_batch.SpaceTimeComponentSolutionStorageBatched_Files");
       ("keep_in_memory", JNum 1)]);
     ("storage_local", JDict [("python_class", JStr "eustace.analysis.advanced_standard.components.storage_files_batch.SpatialComponentSolutionStorageIndexed_Files")]);
     ("inputsources", JList [JDict [("name", JStr "insitu_land");
        ("fixed_location_lookup_filename", JDict [("python_class", JStr "eustace.analysis.advanced_standard.examples.placeholder.AnnualBatchDays");
          ("datasetname", JStr "locationlookup_insitu_land")]);
        ("local_correlation_ranges_filenames", JDict [("Tmin", JDict [("python_class", JStr "eustace.analysis.advanced_standard.examples.placeholder.AnnualBatchDays");
            ("datasetname", JStr "rawbinary_insitu_land_Tmin_correlationranges")]);
          ("Tmax", JDict [("python_class", JStr "eustace.analysis.advanced_standard.examples.placeholder.AnnualBatchDays");
            ("datasetname", JStr "rawbinary_insitu_land_Tmax_correlationranges")])]);
        ("observable_filenames", JDict [("Tmin", JDict [("python_class", JStr "eustace.analysis.advanced_standard.examples.placeholder.AnnualBatchDays");
            ("datasetname", JStr "rawbinary_insitu_land_Tmin");
            ("missing_data", JStr "allowed")]);
          ("Tmax", JDict [("python_class", JStr "eustace.analysis.advanced_standard.examples.placeholder.AnnualBatchDays");
            ("datasetname", JStr "rawbinary_insitu_land_Tmax");
            ("missing_data", JStr "allowed")])])];
       JDict [("name", JStr "insitu_ocean");
        ("local_correlation_ranges_filenames", JDict [("Tmean", JDict [("python_class", JStr "eustace.analysis.advanced_standard.examples.placeholder.AnnualBatchDays");
            ("datasetname", JStr "rawbinary_insitu_ocean_Tmean_correlationranges")])]);
        ("observable_filenames", JDict [("Tmean", JDict [("python_class", JStr "eustace.analysis.advanced_standard.examples.placeholder.AnnualBatchDays");
            ("datasetname", JStr "rawbinary_insitu_ocean_Tmean");
            ("subsetindex", JNum 0);
            ("missing_data", JStr "allowed")])]);
        ("mobile_location_lookup_filenames", JDict [("Tmean", JDict [("python_class", JStr "eustace.analysis.advanced_standard.examples.placeholder.AnnualBatchDays");
            ("datasetname", JStr "rawbinary_insitu_ocean_Tmean");
            ("subsetindex", JNum 1);
            ("missing_data", JStr "allowed")])])];
       JDict [("name", JStr "surfaceairmodel_land");
        ("fixed_location_lookup_filename", JDict [("python_class", JStr "eustace.analysis.advanced_standard.examples.placeholder.AnnualBatchDays");
          ("datasetname", JStr "locationlookup_satellite")]);
        ("local_correlation_ranges_filenames", JDict [("Tmin", JDict [("python_class", JStr "eustace.analysis.advanced_standard.examples.placeholder.AnnualBatchDays");
            ("datasetname", JStr "rawbinary_surfaceairmodel_land_Tmin_correlationranges")]);
          ("Tmax", JDict [("python_class", JStr "eustace.analysis.advanced_standard.examples.placeholder.AnnualBatchDays");
            ("datasetname", JStr "rawbinary_surfaceairmodel_land_Tmax_correlationranges")])]);
        ("observable_filenames", JDict [("Tmin", JDict [("python_class", JStr "eustace.analysis.advanced_standard.examples.placeholder.AnnualBatchDays");
            ("datasetname", JStr "rawbinary_surfaceairmodel_land_Tmin");
            ("missing_data", JStr "allowed")]);
          ("Tmax", JDict [("python_class", JStr "eustace.analysis.advanced_standard.examples.placeholder.AnnualBatchDays");
            ("datasetname", JStr "rawbinary_surfaceairmodel_land_Tmax");
            ("missing_data", JStr "allowed")])])];
       JDict [("name", JStr "surfaceairmodel_ocean");
        ("fixed_location_lookup_filename", JDict [("python_class", JStr "eustace.analysis.advanced_standard.examples.placeholder.AnnualBatchDays");
          ("datasetname", JStr "locationlookup_satellite")]);
        ("local_correlation_ranges_filenames", JDict [("Tmean", JDict [("python_class", JStr "eustace.analysis.advanced_standard.examples.placeholder.AnnualBatchDays");
            ("datasetname", JStr "rawbinary_surfaceairmodel_ocean_Tmean_correlationranges")])]);
        ("observable_filenames", JDict [("Tmean", JDict [("python_class", JStr "eustace.analysis.advanced_standard.examples.placeholder.AnnualBatchDays");
            ("datasetname", JStr "rawbinary_surfaceairmodel_ocean_Tmean");
            ("missing_data", JStr "allowed")])])];
       JDict [("name", JStr "surfaceairmodel_ice");
        ("fixed_location_lookup_filename", JDict [("python_class", JStr "eustace.analysis.advanced_standard.examples.placeholder.AnnualBatchDays");
          ("datasetname", JStr "locationlookup_satellite")]);
        ("local_correlation_ranges_filenames", JDict [("Tmin", JDict [("python_class", JStr "eustace.analysis.advanced_standard.examples.placeholder.AnnualBatchDays");
            ("datasetname", JStr "rawbinary_surfaceairmodel_ice_Tmin_correlationranges")]);
          ("Tmean", JDict [("python_class", JStr "eustace.analysis.advanced_standard.examples.placeholder.AnnualBatchDays");
            ("datasetname", JStr "rawbinary_surfaceairmodel_ice_Tmean_correlationranges")]);
          ("Tmax", JDict [("python_class", JStr "eustace.analysis.advanced_standard.examples.placeholder.AnnualBatchDays");
            ("datasetname", JStr "rawbinary_surfaceairmodel_ice_Tmax_correlationranges")])]);
        ("observable_filenames", JDict [("Tmin", JDict [("python_class", JStr "eustace.analysis.advanced_standard.examples.placeholder.AnnualBatchDays");
            ("datasetname", JStr "rawbinary_surfaceairmodel_ice_Tmin");
            ("missing_data", JStr "allowed")]);
          ("Tmean", JDict [("python_class", JStr "eustace.analysis.advanced_standard.examples.placeholder.AnnualBatchDays");
            ("datasetname", JStr "rawbinary_surfaceairmodel_ice_Tmean");
            ("missing_data", JStr "allowed")]);
          ("Tmax", JDict [("python_class", JStr "eustace.analysis.advanced_standard.examples.placeholder.AnnualBatchDays");
            ("datasetname", JStr "rawbinary_surfaceairmodel_ice_Tmax");
            ("missing_data", JStr "allowed")])])]]);
     ("time_indices", JDict [("python_class", JStr "eustace.analysis.advanced_standard.examples.placeholder.AnalysisAnnualBatchDayIndices")]);
     ("component_index", JNull);
     ("covariates_descriptor", JStr "/gws/nopw/j04/eustace/data/internal/climatology_covariates/covariates.json");
     ("insitu_biases", JNull);
     ("breakpoints_file", JStr "/gws/nopw/j04/eustace/data/internal/D1.7/daily/eustace_stations_global_R001127_daily_status.nc");
     ("global_biases", JNull);
     ("global_biases_group_list", JList [JStr "surfaceairmodel_ice_global";
       JStr "surfaceairmodel_land_global";
       JStr "surfaceairmodel_ocean_global"]);
     ("compute_uncertainties", JNull);
     ("method", JNull);
     ("compute_sample", JNull);
     ("sample_size", JNull);
     ("compute_prior_sample", JNull)]);
   ("step", JDict [("python_class", JStr "eustace.analysis.advanced_standard.examples.step.StepMonthly"); ("start", JNull); ("end", JNull)]);
   ("newdatasets", JList [JDict [("python_class", JStr "eumopps.catalogue.dataset.CatalogueDataSet");
      ("name", JNull);
      ("subsets", JList [JDict [("python_class", JStr "eumopps.catalogue.dataset.CatalogueDataSubset");
         ("layout", JDict [("python_class", JStr "eumopps.catalogue.storage.DataStorageFiles"); ("patterns", JNull)])]])]])].

(* src/roses/fullstace/advanced_standard/templates/advstd_outputgrid_template.json *)
Definition shipped_outputgrid : json :=
  JDict [("python_class", JStr "eumopps.catalogue.operation.Operation");
   ("name", JNull);
   ("runmodule", JDict [("python_function", JStr "eustace.analysis.advanced_standard.examples.moving_climatology.output_grid");
     ("storage_climatology", JDict [("python_class", JStr "eustace.analysis.advanced_standard.components.storage_files.SpaceTimeComponentSolutionStorage_Files");
       ("statefilename_read", JDict [("python_class", JStr "eumopps.catalogue.placeholder.InputFile"); ("datasetname", JNull); ("missing_data", JStr "allowed")]);
       ("sample_filename_read", JDict [("python_class", JStr "eumopps.catalogue.placeholder.InputFile"); ("datasetname", JNull); ("missing_data", JStr "allowed")]);
       ("prior_sample_filename_read", JDict [("python_class", JStr "eumopps.catalogue.placeholder.InputFile"); ("datasetname", JNull); ("missing_data", JStr "allowed")])]);
     ("storage_large_scale", JDict [("python_class", JStr "eustace.analysis.advanced_standard.components.storage_files.SpaceTimeComponentSolutionStorage_Files");
       ("statefilename_read", JDict [("python_class", JStr "eumopps.catalogue.placeholder.InputFile"); ("datasetname", JNull); ("missing_data", JStr "allowed")]);
       ("sample_filename_read", JDict [("python_class", JStr "eumopps.catalogue.placeholder.InputFile"); ("datasetname", JNull); ("missing_data", JStr "allowed")]);
       ("prior_sample_filename_read", JDict [("python_class", JStr "eumopps.catalogue.placeholder.InputFile"); ("datasetname", JNull); ("missing_data", JStr "allowed")])]);
     ("storage_local", JDict [("python_class", JStr "eustace.analysis.advanced_standard.components.storage_files.SpatialComponentSolutionStorage_Files");
       ("time_index", JDict [("python_class", JStr "eustace.analysis.advanced_standard.examples.placeholder.AnalysisStepIndex")]);
       ("statefilename_read", JDict [("python_class", JStr "eumopps.catalogue.placeholder.InputFile"); ("datasetname", JNull); ("missing_data", JStr "allowed")]);
       ("sample_filename_read", JDict [("python_class", JStr "eumopps.catalogue.placeholder.InputFile"); ("datasetname", JNull); ("missing_data", JStr "allowed")]);
       ("prior_sample_filename_read", JDict [("python_class", JStr "eumopps.catalogue.placeholder.InputFile"); ("datasetname", JNull); ("missing_data", JStr "allowed")])]);
     ("processdate", JDict [("python_class", JStr "eumopps.catalogue.placeholder.StepTime")]);
     ("time_index", JDict [("python_class", JStr "eustace.analysis.advanced_standard.examples.placeholder.AnalysisStepIndex")]);
     ("outputfile", JDict [("python_class", JStr "eumopps.catalogue.placeholder.OutputFile"); ("datasetname", JNull)]);
     ("covariates_descriptor", JStr "/gws/nopw/j04/eustace/data/internal/climatology_covariates/covariates.json");
     ("insitu_biases", JNull);
     ("breakpoints_file", JStr "/gws/nopw/j04/eustace/data/internal/D1.7/daily/eustace_stations_global_R001127_daily_status.nc");
     ("global_biases", JNull);
     ("global_biases_group_list", JList [JStr "surfaceairmodel_ice_global";
       JStr "surfaceairmodel_land_global";
       JStr "surfaceairmodel_ocean_global"])]);
   ("step", JDict [("python_class", JStr "eumopps.catalogue.step.StepDaily"); ("start", JNull); ("end", JNull)]);
   ("newdatasets", JList [JDict [("python_class", JStr "eumopps.catalogue.dataset.CatalogueDataSet");
      ("name", JNull);
      ("subsets", JList [JDict [("python_class", JStr "eumopps.catalogue.dataset.CatalogueDataSubset");
         ("layout", JDict [("python_class", JStr "eumopps.catalogue.storage.DataStorageFiles"); ("patterns", JNull)])]])]])].

(* generate_json_descriptors.py:30-53, with the names of the four gridded data sets as a parameter (47-51: by default all four are
   'eustace_infilled') *)
Definition settings (dates : string * string) (total climatology large_scale local : string) : filler :=
  {| f_operation := shipped_operation; f_batch_operation := shipped_batch_operation; f_output_grid := shipped_outputgrid;
     f_start_date := fst dates; f_end_date := snd dates; f_land_biases := JNum 1; f_global_biases := JNum 1;
     f_measurement_climatology_command := "climatology_input"; f_measurement_climatology := "measurement_climatology";
     f_solution_climatology_command := "climatology_solve"; f_solution_climatology := "solution_climatology";
     f_measurement_large_scale_command := "large_scale_input"; f_measurement_large_scale := "measurement_large_scale";
     f_solution_large_scale_command := "large_scale_solve"; f_solution_large_scale := "solution_large_scale";
     f_local_scale_command := "local_input_and_solve"; f_solution_local_scale := "solution_local";
     f_output_grid_command := "output_grid"; f_output_grid_name := total;
     f_output_climatology := climatology; f_output_large_scale := large_scale; f_output_local := local;
     f_state_sample_size := 30 |}.
Definition defaults (dates : string * string) : filler := settings dates "eustace_infilled" "eustace_infilled" "eustace_infilled" "eustace_infilled".
