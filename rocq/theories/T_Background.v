(** The unit tests of test_BackgroundField.py, run on the model (generated from the test file; these are tests, not proofs). *)
Require Import String ZArith QArith List Bool.
Require Import Verif.M_Base Verif.M_Files Verif.T_Num Verif.T_Check.
Import ListNotations.
Open Scope string_scope.
Open Scope Z_scope.

(** The files that the tests expect on the authors' machine. *)
Definition size (f : string) : option Z :=
  if existsb (String.eqb f)
       ["/project/earthobs/SST/ESACCI_SST/CDR2.1_release/Analysis/L4/2002/11/30/20021130120000-ESACCI-L4_GHRSST-SSTdepth-OSTIA-GLOB_CDR2.1-v02.0-fv01.0.nc";
        "/project/ofrd/ostia/reanalysis/v1.0/2002/11/20021130-UKMO-L4HRfnd-GLOB-v01-fv02-OSTIARAN.nc.bz2";
        "/project/ofrd/ostia/data/netcdf/2010/08/20100803-UKMO-L4HRfnd-GLOB-v01-fv02-OSTIA.nc.bz2";
        "/project/earthobs/ICOADS/ICOADS.3.0.0/IMMA1_R3.0.0_2003-09.gz"; "/project/earthobs/ICOADS/ICOADS.3.0.1/IMMA1_R3.0.1_2016-12.gz"]
  then Some 1 else None.
Definition TestBuildCompletions_test_simple : bool := Eval vm_compute in (all [same (rs VStr (at_ (build_completions "a"%string ["b"%string; "c"%string]) 0)) (VStr "a/b"%string);
  same (rs VStr (at_ (build_completions "a"%string ["b"%string; "c"%string]) 1)) (VStr "a/b/c"%string)]).
Example TestBuildCompletions_test_simple_is : TestBuildCompletions_test_simple = true.
Proof. reflexivity. Qed.
Definition TestBuildCompletions_test_even_simpler : bool := Eval vm_compute in (all [same (rs VStr (at_ (build_completions "a"%string ["b"%string]) 0)) (VStr "a/b"%string)]).
Example TestBuildCompletions_test_even_simpler_is : TestBuildCompletions_test_even_simpler = true.
Proof. reflexivity. Qed.
Definition TestBuildCompletions_test_too_many_slashes : bool := Eval vm_compute in (all [same (rs VStr (at_ (build_completions "a/"%string ["b"%string]) 0)) (VStr "a/b"%string)]).
Example TestBuildCompletions_test_too_many_slashes_is : TestBuildCompletions_test_too_many_slashes = true.
Proof. reflexivity. Qed.
Definition TestProcessString_test_simple : bool := Eval vm_compute in (all [same (VStr (process_string "OnceUponAYYYYMMMMDDDD"%string 2019 3 31)) (VStr "OnceUponA20190331"%string)]).
Example TestProcessString_test_simple_is : TestProcessString_test_simple = true.
Proof. reflexivity. Qed.
Definition TestMakeFilename_test_basic : bool := Eval vm_compute in (all [same (VStr (make_filename "/project/data/coriolis/YYYY/MMMM/DDDD/"%string "AwesomeData_YYYYMMMMDDDD.nc"%string 2002 2 17)) (VStr "/project/data/coriolis/2002/02/17/AwesomeData_20020217.nc"%string)]).
Example TestMakeFilename_test_basic_is : TestMakeFilename_test_basic = true.
Proof. reflexivity. Qed.
Definition TestMakeFilename_test_non_terminating_slash : bool := Eval vm_compute in (all [same (VStr (make_filename "/project/data/coriolis/YYYY/MMMM/DDDD"%string "AwesomeData_YYYYMMMMDDDD.nc"%string 2002 2 17)) (VStr "/project/data/coriolis/2002/02/17/AwesomeData_20020217.nc"%string)]).
Example TestMakeFilename_test_non_terminating_slash_is : TestMakeFilename_test_non_terminating_slash = true.
Proof. reflexivity. Qed.
Definition TestGetBackgroundFilename_test_simple_cci : bool := Eval vm_compute in (all [same (rs (fun p => opt VStr (fst p)) (get_background_filename size (Some "/scratch/hadjj") ["/project/earthobs/SST/ESACCI_SST/CDR2.1_release/Analysis/L4/YYYY/MMMM/DDDD/"%string] ["YYYYMMMMDDDD120000-ESACCI-L4_GHRSST-SSTdepth-OSTIA-GLOB_CDR2.1-v02.0-fv01.0.nc"%string] (Some 2002) (Some 11) (Some 30))) (VStr "/project/earthobs/SST/ESACCI_SST/CDR2.1_release/Analysis/L4/2002/11/30/20021130120000-ESACCI-L4_GHRSST-SSTdepth-OSTIA-GLOB_CDR2.1-v02.0-fv01.0.nc"%string)]).
Example TestGetBackgroundFilename_test_simple_cci_is : TestGetBackgroundFilename_test_simple_cci = true.
Proof. reflexivity. Qed.
Definition TestGetBackgroundFilename_test_missing_cci : bool := Eval vm_compute in (all [same (rs (fun p => opt VStr (fst p)) (get_background_filename size (Some "/scratch/hadjj") ["/project/earthobs/SST/ESACCI_SST/CDR2.1_release/Analysis/L4/YYYY/MMMM/DDDD/"%string] ["YYYYMMMMDDDD120000-ESACCI-L4_GHRSST-SSTdepth-OSTIA-GLOB_CDR2.1-v02.0-fv01.0.nc"%string] (Some 1922) (Some 11) (Some 30))) VNone]).
Example TestGetBackgroundFilename_test_missing_cci_is : TestGetBackgroundFilename_test_missing_cci = true.
Proof. reflexivity. Qed.
Definition TestGetBackgroundFilename_test_pre_2007_ostia : bool := Eval vm_compute in (all [same (rs (fun p => opt VStr (fst p)) (get_background_filename size (Some "/scratch/hadjj") ["/project/ofrd/ostia/reanalysis/v1.0/YYYY/MMMM/"%string; "/project/ofrd/ostia/data/netcdf/YYYY/MMMM/"%string] ["YYYYMMMMDDDD-UKMO-L4HRfnd-GLOB-v01-fv02-OSTIARAN.nc"%string; "YYYYMMMMDDDD-UKMO-L4HRfnd-GLOB-v01-fv02-OSTIA.nc"%string] (Some 2002) (Some 11) (Some 30))) (VStr "/scratch/hadjj/20021130-UKMO-L4HRfnd-GLOB-v01-fv02-OSTIARAN.nc"%string)]).
Example TestGetBackgroundFilename_test_pre_2007_ostia_is : TestGetBackgroundFilename_test_pre_2007_ostia = true.
Proof. reflexivity. Qed.
Definition TestGetBackgroundFilename_test_post_2007_ostia : bool := Eval vm_compute in (all [same (rs (fun p => opt VStr (fst p)) (get_background_filename size (Some "/scratch/hadjj") ["/project/ofrd/ostia/reanalysis/v1.0/YYYY/MMMM/"%string; "/project/ofrd/ostia/data/netcdf/YYYY/MMMM/"%string] ["YYYYMMMMDDDD-UKMO-L4HRfnd-GLOB-v01-fv02-OSTIARAN.nc"%string; "YYYYMMMMDDDD-UKMO-L4HRfnd-GLOB-v01-fv02-OSTIA.nc"%string] (Some 2010) (Some 8) (Some 3))) (VStr "/scratch/hadjj/20100803-UKMO-L4HRfnd-GLOB-v01-fv02-OSTIA.nc"%string)]).
Example TestGetBackgroundFilename_test_post_2007_ostia_is : TestGetBackgroundFilename_test_post_2007_ostia = true.
Proof. reflexivity. Qed.
Definition TestIcoadsFilenameFromStub_test_2013 : bool := Eval vm_compute in (all [same (rs (opt VStr) (icoads_filename_from_stub (fun f => match size f with Some _ => true | None => false end) ["/project/earthobs/ICOADS/ICOADS.3.0.0/"%string; "/project/earthobs/ICOADS/ICOADS.3.0.1/"%string] ["IMMA1_R3.0.0_YYYY-MMMM.gz"%string; "IMMA1_R3.0.1_YYYY-MMMM.gz"%string] (Some 2003) (Some 9))) (VStr "/project/earthobs/ICOADS/ICOADS.3.0.0/IMMA1_R3.0.0_2003-09.gz"%string)]).
Example TestIcoadsFilenameFromStub_test_2013_is : TestIcoadsFilenameFromStub_test_2013 = true.
Proof. reflexivity. Qed.
Definition TestIcoadsFilenameFromStub_test_2016 : bool := Eval vm_compute in (all [same (rs (opt VStr) (icoads_filename_from_stub (fun f => match size f with Some _ => true | None => false end) ["/project/earthobs/ICOADS/ICOADS.3.0.0/"%string; "/project/earthobs/ICOADS/ICOADS.3.0.1/"%string] ["IMMA1_R3.0.0_YYYY-MMMM.gz"%string; "IMMA1_R3.0.1_YYYY-MMMM.gz"%string] (Some 2016) (Some 12))) (VStr "/project/earthobs/ICOADS/ICOADS.3.0.1/IMMA1_R3.0.1_2016-12.gz"%string)]).
Example TestIcoadsFilenameFromStub_test_2016_is : TestIcoadsFilenameFromStub_test_2016 = true.
Proof. reflexivity. Qed.
