PRE['test_Extended_IMMA.py']='''(** str of a float with at most one decimal. *)
Definition str_f (_ : string) (q : Q) : string :=
  let t := M_Base.py_int (q * 10) in (M_Imma.str_of_int (Z.quot t 10) ++ "." ++ M_Imma.str_of_int (Z.abs (Z.rem t 10)))%string.
(** int(xspan / cos(...)) of the neighbour search. *)
Definition n_xspan (sx y : Z) : Z := Z.quot (quo (sx * one) (cosine (radians ((179 # 2) - inject_Z y)))) one.
'''

HAND[('test_track_check.py','TestTrackQCMethodsModesp','test_one_of_each_speed_input_min_under8point5')]='same (rs (opt ofQ) (modesp (map (fun k => Some (inject_Z (Z.of_nat k) / km_to_nm)%Q) (seq 1 19)))) (VNum ((17 # 2) / km_to_nm))'
def rep(i,hr): return '(new_report (Some "%s") None [("YR", Some 2003); ("MO", Some 12); ("DY", Some 1); ("HR", Some %s); ("LAT", Some 0); ("LON", Some 0); ("SST", Some 5)])%%Q'%(i,hr)
A0=rep('AAAAAAAAA','0'); B0=rep('BBBBBBBBB','0'); B10=rep('BBBBBBBBB','10')
def srt(l,k,e): return 'same (rs (fun l => rs (fun r => %s) (at_ (sort_reports l) 0)) (reports_of [%s; %s])) %s'%(k,l[0],l[1],e)
HAND[('test_Extended_IMMA.py','TestMarineReport','test_sort_same_ID_different_time')]=srt([B0,B10],'opt ofQ (getvar r "HR")','(VNum 0)')+';\n  '+srt([B10,B0],'opt ofQ (getvar r "HR")','(VNum 0)')
HAND[('test_Extended_IMMA.py','TestMarineReport','test_sort_same_time_different_ID')]=srt([A0,B0],'opt VStr (r_id r)','(VStr "AAAAAAAAA")')+';\n  '+srt([B0,A0],'opt VStr (r_id r)','(VStr "AAAAAAAAA")')
cv=lambda r,w,e: 'same (rs (fun r => opt ofQ (%s (%s) "SST")) %s) %s'%(w,r,A0,e)

PRE['test_BackgroundField.py']='''(** The files that the tests expect on the authors' machine. *)
Definition size (f : string) : option Z :=
  if existsb (String.eqb f)
       ["/project/earthobs/SST/ESACCI_SST/CDR2.1_release/Analysis/L4/2002/11/30/20021130120000-ESACCI-L4_GHRSST-SSTdepth-OSTIA-GLOB_CDR2.1-v02.0-fv01.0.nc";
        "/project/ofrd/ostia/reanalysis/v1.0/2002/11/20021130-UKMO-L4HRfnd-GLOB-v01-fv02-OSTIARAN.nc.bz2";
        "/project/ofrd/ostia/data/netcdf/2010/08/20100803-UKMO-L4HRfnd-GLOB-v01-fv02-OSTIA.nc.bz2";
        "/project/earthobs/ICOADS/ICOADS.3.0.0/IMMA1_R3.0.0_2003-09.gz"; "/project/earthobs/ICOADS/ICOADS.3.0.1/IMMA1_R3.0.1_2016-12.gz"]
  then Some 1 else None.
'''
PRE['test_Climatology.py']='''(** A constant field of a given shape (for the fields that the tests read from files: only the shape matters here). *)
Definition constant (n ny nx : Z) : clim := {| cn := n; cny := ny; cnx := nx; cval := fun _ _ _ => Some 1%Q |}.
'''
def tin(c,m,d,e): return 'same (rs ofZ (get_tindex (constant %s) %d %d)) (VNum %d)'%(c,m,d,e)
def nres(c,n,r): return 'same (ofZ (cn (constant %s))) (VNum %d);\n  same (ofQ (clim_res (constant %s))) (VNum %s)'%(c,n,c,r)
DU='1 360 720'; DA='365 180 360'; PE='73 180 360'
HAND[('test_Climatology.py','TestInit','test_tindex')]=';\n  '.join([tin(DU,1,1,0),tin(DU,12,31,0),tin(DA,1,1,0),tin(DA,12,31,364),tin(PE,1,1,0),tin(PE,12,31,72)])
HAND[('test_Climatology.py','TestInit','test_basics_work')]=';\n  '.join([nres(PE,73,'1'),tin(PE,12,31,72),nres(DU,1,'(1 # 2)'),tin(DU,12,31,0)])
HAND[('test_Climatology.py','TestInit','test_daily')]=';\n  '.join([nres(DA,365,'1'),tin(DA,12,31,364)])
HAND[('test_Climatology.py','TestInit','test_known_values')]='same (rs (opt ofQ) (get_value (constant %s) 12 (145 # 2) 3 7)) (VNum 1)'%DU
