# Writes rocq/theories/T_*.v: runs the test files of /repo against stand-ins that record each call as a Coq term.
import sys, os, types, math, re
from fractions import Fraction
PINNED='/repo/'
# ---- rendering
def Z(x):
    x=int(x); return str(x) if x>=0 else '(%d)'%x
def Qs(x):
    if isinstance(x,Sym): raise Skip('symbolic argument')
    f=Fraction(repr(float(x))) if isinstance(x,float) else Fraction(x)
    if f.denominator==1: return Z(f.numerator)
    return '(%d # %d)'%(f.numerator,f.denominator)
def OZ(x): return 'None' if x is None else '(Some %s)'%Z(x)
def OQ(x): return 'None' if x is None else '(Some %s%%Q)'%Qs(x)
def X(x): return '(Fin %s)'%Qs(x)
def OX(x): return 'None' if x is None else '(Some (Fin %s))'%Qs(x)
def S(s): return '"'+s.replace('"','""')+'"%string' if '\n' not in s else '("%s" ++ newline_s)%%string'%s.rstrip('\n').replace('"','""')
def OS(s): return 'None' if s is None else '(Some %s)'%S(s)
def L(f,l): return '['+'; '.join(f(x) for x in l)+']'
class Skip(Exception): pass
def val(e):
    if isinstance(e,Sym): return e.c
    if e is None: return 'VNone'
    if e is True or e is False: return '(VNum %d)'%int(e)
    if isinstance(e,str): return '(VStr %s)'%S(e)
    if isinstance(e,float) and math.isinf(e): return '(VInf %s)'%('true' if e>0 else 'false')
    if isinstance(e,(int,float)): return '(VNum %s)'%Qs(e)
    raise Skip('value '+repr(e))
class Sym:
    def __init__(s,c): s.c='('+c+')'
    def __sub__(s,o): return Sym('minus %s %s'%(s.c,val(o)))
    def __bool__(s): raise Skip('branch on a result')
    __hash__=None
    def __eq__(s,o): raise Skip('comparison')
    def _n(s,*a): raise Skip('arithmetic on a result')
    __mul__=__rmul__=__add__=__radd__=__truediv__=__lt__=__gt__=_n
checks=[]
raising=[]
def wrap(fn):
    # a call inside assertRaises does not become a check on its own
    return fn
class Raises:
    def __init__(s,e): s.e=e
    def __enter__(s): s.n=len(calls); return s
    def __exit__(s,t,v,tb):
        if t is not None: return False
        assert s.e is AssertionError
        checks.append('asserts %s'%calls[-1])
lets={}
def share(e):
    if e not in lets: lets[e]='x%d'%(len(lets)+1)
    return lets[e]
calls=[]
def call(c):
    r=Sym(c); calls.append(r.c); return r
class TestCase:
    def setUp(self): pass
    def tearDown(self): pass
    def assertEqual(self,a,b,msg=None):
        if isinstance(a,FlagSym): flagcheck(a,b); return
        if isinstance(b,FlagSym): flagcheck(b,a); return
        if not isinstance(a,Sym) and not isinstance(b,Sym): assert a==b; return
        for x in (a,b):
            if isinstance(x,float) and len(repr(x).replace('.','').replace('-','').strip('0'))>12:
                checks.append('near (1 # 1000000000000) %s %s'%(val(a),val(b))); return
        checks.append('same %s %s'%(val(a),val(b)))
    def assertNotEqual(self,a,b,msg=None):
        checks.append('negb (same %s %s)'%(val(a),val(b)))
    def assertAlmostEqual(self,a,b,msg=None,delta=None):
        if not isinstance(a,Sym) and not isinstance(b,Sym): assert abs(a-b)<=delta; return
        checks.append('near %s %s %s'%(Qs(delta),val(a),val(b)))
    def assertIsNone(self,a,msg=None): self.assertEqual(a,None)
    def assertTrue(self,a,msg=None): self.assertEqual(a,True)
    def assertFalse(self,a,msg=None): self.assertEqual(a,False)
    def assertRaises(self,e): return Raises(e)
    def assertIn(self,a,l):
        if isinstance(l,ListSym): checks.append(l.has(a)); return
        checks.append('('+' || '.join('same %s %s'%(val(a),val(x)) for x in l)+')')
class FlagSym(Sym):
    def __init__(s,r,i,t,f): s.r=r; s.i=i; s.t=t; s.f=f; s.c='(rs (fun v => rs (fun r => ofZ (get_qc r %s %s)) (at_ v %d)) %s)'%(S(t),S(f),i,r)
class Flags:
    def __init__(s,r,t,f): s.r=r;s.t=t;s.f=f;s.l={}
def flagcheck(a,e):
    for c in checks:
        if isinstance(c,Flags) and (c.r,c.t,c.f)==(a.r,a.t,a.f): c.l[a.i]=e; return
    c=Flags(a.r,a.t,a.f); c.l[a.i]=e; checks.append(c)
def render(c):
    if isinstance(c,Flags):
        assert sorted(c.l)==list(range(len(c.l))), c.l
        return 'flags %s %s %s %s'%(share(c.r),S(c.t),S(c.f),L(Z,[c.l[i] for i in range(len(c.l))]))
    return c
# ---- numpy
class Arr(list):
    def __eq__(s,o): return Arr([a==b for a,b in zip(s,o)])
class Full:
    def __init__(s,shape,v): s.shape=shape; s.v=v
    def c(s): return '{| cn := %d; cny := %d; cnx := %d; cval := fun _ _ _ => %s |}'%(*s.shape,OQ(s.v))
np=types.ModuleType('numpy')
np.array=Arr; np.all=lambda x: all(x); np.full=Full; np.pi=math.pi; np.cos=math.cos; np.sqrt=math.sqrt
# ---- qc
qc=types.ModuleType('qc')
def fn(mod,name):
    def d(f): setattr(mod,name or f.__name__,f); return f
    return d
def proj(names,i):
    # fun '(a,b,c) => a
    return "(fun t => let '(%s) := t in %s)"%(', '.join(names),i)
def tup(c,kind,names,leaf):
    call(c)
    return tuple(Sym("%s (fun t => let '(%s) := t in %s %s) %s"%(kind,', '.join(names),leaf,n,'('+c+')')) for n in names)
qc.wind_consistency=lambda a,b,c: call('ofZ (wind_consistency %s %s %s)'%(OX(a),OX(b),X(c)))
qc.season=lambda m: call('rs (opt VStr) (season %s)'%Z(m))
qc.yesterday=lambda y,m,d: tup('yesterday %s %s %s'%(Z(y),Z(m),Z(d)),'opt',['y','m','d'],'ofZ')
def p2md(p):
    if isinstance(p,Sym): raise Skip('')
    return PMD(p),PMD2(p)
class PMD(Sym):
    def __init__(s,p): s.p=p; s.c='?'
class PMD2(PMD): pass
qc.pentad_to_month_day=p2md
def which_pentad(m,d):
    if isinstance(m,PMD): return call('rs ofZ (let! (m, d) := pentad_to_month_day %s in which_pentad m d)'%Z(m.p))
    return call('rs ofZ (which_pentad %s %s)'%(Z(m),Z(d)))
qc.which_pentad=which_pentad
qc.day_in_year=lambda m,d: call('rs ofZ (day_in_year %s %s)'%(Z(m),Z(d)))
class DIY(Sym): pass
def dayinyear(y,m,d):
    r=DIY('rs ofZ (dayinyear %s %s %s)'%(Z(y),Z(m),Z(d))); calls.append(r.c); r.raw='(dayinyear %s %s %s)'%(Z(y),Z(m),Z(d)); return r
qc.dayinyear=dayinyear
qc.jul_day=lambda y,m,d: call('rs ofZ (jul_day %s %s %s)'%(Z(y),Z(m),Z(d)))
qc.time_difference=lambda y,m,d,h,y2,m2,d2,h2: call('rs (opt ofQ) (time_difference %s %s %s %s %s %s %s %s)'%(Z(y),Z(m),Z(d),OQ(h),Z(y2),Z(m2),Z(d2),OQ(h2)))
qc.value_check=lambda v: call('ofZ (value_check %s)'%OX(v) if v is not None else 'ofZ (value_check (@None xnum))')
qc.sst_freeze_check=lambda v,s=0.0,f=-1.80: call('rs ofZ (sst_freeze_check %s %s %s (Fin 2))'%(OX(v),OX(s),OX(f)))
qc.hard_limit=lambda v,l: call('rs ofZ (hard_limit %s (%s, %s))'%(OX(v),X(l[0]),X(l[1])))
qc.climatology_check=lambda a,b,limit=8.0: call('ofZ (climatology_check %s %s %s)'%(OX(a),OX(b),OX(limit)))
qc.position_check=lambda a,b: call('rs ofZ (position_check %s %s)'%(OX(a),OX(b)))
def allint(l): return all(isinstance(x,int) for x in l)
def wins(l):
    if allint(l): return call('rs ofZ (winsorised_mean_int %s)'%L(Z,l))
    return call('rs ofQ (winsorised_mean %s%%Q)'%L(Qs,l))
qc.winsorised_mean=wins
qc.trimmed_mean=lambda l,t: call('ofX (trimmed_mean %s%%Q %s)'%(L(Qs,l),Z(t)))
qc.lat_to_yindex=lambda l,res=1: call('ofZ (lat_to_yindex %s %s)'%(Qs(l),Qs(res)))
qc.lon_to_xindex=lambda l,res=1: call('opt ofZ (lon_to_xindex %s %s)'%(Qs(l),Qs(res)))
qc.mds_lat_to_yindex=lambda l,res=1: call('ofZ (mds_lat_to_yindex %s %s)'%(Qs(l),Qs(res)))
qc.mds_lon_to_xindex=lambda l,res=1: call('ofZ (mds_lon_to_xindex %s %s)'%(Qs(l),Qs(res)))
qc.blacklist=lambda i,d,y,m,la,lo,pt=None: call('rs ofZ (blacklist %s %s %s %s %s %s %s)'%(OS(i),OZ(d),Z(y),Z(m),Qs(la),Qs(lo),OZ(pt)))
def sunangle(y,d,h,mi,s,zone,dst,la,lo):
    # n_elevation takes the time in hours and minutes at longitude lo, with zone and dasvtm folded in: hour - dst + zone
    # sunangle converts local time to UT by subtracting dasvtm and adding zone
    e=Sym('rs (fun d => ofQ (n_elevation %s d %s %s %s %s)) %s'%(Z(y),Qs(h-dst+zone) if zone==int(zone) else '?',Qs(mi),Qs(la),Qs(lo),d.raw))
    if zone!=int(zone): raise Skip('zone with a fraction')
    n=Sym('VNone')
    return n,e,n,n,n,n
qc.sunangle=sunangle
qc.day_test=lambda y,m,d,h,la,lo,time_since_sun_above_horizon=1.0: call('rs ofZ (day_test n_elevation %s %s %s %s %s %s %s)'%(OZ(y),OZ(m),OZ(d),OQ(h),OQ(la),Qs(lo),Qs(time_since_sun_above_horizon)))
qc.yindex_to_lat=lambda i,r: call('rs ofQ (yindex_to_lat %s %s)'%(Z(i),Qs(r)))
qc.xindex_to_lon=lambda i,r: call('rs ofQ (xindex_to_lon %s %s)'%(Z(i),Qs(r)))
qc.missing_mean=lambda l: call('opt ofQ (missing_mean %s)'%L(OQ,l))
def fill(*a):
    c='(fill_missing_vals %s %s %s %s)'%tuple(map(OQ,a))
    return tuple(Sym("let '(a, b, c, d) := %s in opt ofQ %s"%(c,n)) for n in 'abcd')
qc.fill_missing_vals=fill
qc.get_four_surrounding_points=lambda la,lo,max90=1: tup('get_four_surrounding_points %s %s %s'%(Qs(la),Qs(lo),Z(max90)),'rs',['x1','x2','y1','y2'],'ofQ')
qc.bilinear_interp=lambda *a: call('rs ofQ (bilinear_interp %s)'%' '.join([Qs(x) for x in a[:6]]+[OQ(x) for x in a[6:]]))
def get_sst(la,lo,m,d,f):
    if not isinstance(f,Full): raise Skip('field read from a file')
    return call('rs (opt ofQ) (get_sst %s %s %s %s %s)'%(Qs(la),Qs(lo),Z(m),Z(d),f.c()))
qc.get_sst=get_sst
def noreal(*a): raise Skip('real-valued')
qc.p_gross=qc.p_data_given_gross=noreal
def nofile(*a,**k): raise Skip('field read from a file')
qc.get_hires_sst=nofile
# ---- reports
class IMMA:
    def __init__(s): s.data={}
def field(k,v):
    return '(%s, %s)'%(S(k),OQ(v))
class Report:
    def __lt__(s,o): raise Skip('sorted by hand below')
    def __init__(s,rec):
        d=rec.data
        fs=[field(k,v) for k,v in d.items() if k not in ('ID','UID')]
        s.base='(new_report %s %s [%s])'%(OS(d.get('ID')),OS(d.get('UID')),'; '.join(fs))
        s.data=dict(d); s.exts=[]; s.lastexpr=None
    def expr(s):
        if s.exts:
            return '(with_exts %s [%s])'%(s.base,'; '.join(field(k,v) for k,v in s.exts))
        return s.base
    def push(s,c): s.base='(on %s %s)'%(s.expr(),c); s.exts=[]; calls.append('(rs (fun _ => VNone) %s)'%s.base)
    def setext(s,k,v): s.exts.append((k,v))
    def setvar(s,k,v): s.push('(fun r => setvar r %s %s)'%(S(k),OQ(v))); s.data[k]=v
    def set_qc(s,t,f,v): s.push('(fun r => set_qc r %s %s %s)'%(S(t),S(f),Z(v)))
    def add_climate_variable(s,n,c,sd=None): s.push('(fun r => Ok (add_climate_variable r %s %s %s))'%(S(n),OQ(c),OQ(sd)))
    def get(s,c): return Sym('rs (fun r => %s) %s'%(c,s.expr()))
    def getvar(s,k):
        if k in('ID','UID'): return s.get('opt VStr (r_id r)')
        return RVar(s,'getvar r %s'%S(k),k)
    def lat(s): return RVar(s,'lat r','LAT')
    def lon(s): return RVar(s,'lon r','LON')
    def getanom(s,k): return RVar(s,'getanom r %s'%S(k))
    def getnorm(s,k,w='clim'): return s.get('opt ofQ (%s r %s)'%('getnorm' if w=='clim' else 'getnorm_stdev',S(k)))
    def get_normalised_anom(s,k): return s.get('rs (opt ofQ) (get_normalised_anom r %s)'%S(k))
    def get_qc(s,t,f): return s.get('ofZ (get_qc r %s %s)'%(S(t),S(f)))
    def saturated(s): return s.get('ofB (saturated r)')
    def print_variable_block(s,vn,header=False): return s.get('rs VStr (print_variable_block str_f r %s %s true)'%(L(lambda v:L(S,v),vn),'true' if header else 'false'))
    def print_qc_block(s,b,vn,header=False): return s.get('rs VStr (print_qc_block r %s %s %s true)'%(S(b),L(S,vn),'true' if header else 'false'))
    def __sub__(s,o):
        c='(let! a := %s in let! b := %s in rep_sub earth a b)'%(s.expr(),o.expr())
        return tuple(Sym("rs (fun t => let '(s, d, c, t) := t in ofQ %s) %s"%(n,c)) for n in 'sdct')
class RVar(Sym):
    def __init__(s,r,c,k=None): s.r=r; s.raw=c; s.c='(rs (fun r => opt ofQ (%s)) %s)'%(c,r.expr()); s.k=k
    # the position of a report in plain arithmetic of a test
    def __mul__(s,o):
        return s.r.data[s.k]*o
class Reps(list): pass
def iq(p): return '{| iq_buoy := %s; iq_ship := %s; iq_d := %s; iq_t := %s; iq_n := %s |}'%(Qs(p['buoy_speed_limit']),Qs(p['ship_speed_limit']),Qs(p['delta_d']),Qs(p['delta_t']),Z(p['number_of_neighbours']))
class Voyage:
    def __init__(s): s.reps=Reps(); s.reps.owner=s; s.ops=[]; s.fixed=None
    def add_report(s,r): assert not s.ops; s.reps.append(r)
    def expr(s):
        e='(voyage_of [] [%s])'%'; '.join(x for x in (s.fixed or [r.expr() for r in s.reps]))
        for o in s.ops: e='(on %s %s)'%(e,o)
        return e
    def do(s,o):
        s.ops.append(o); s.cur=None; calls.append('(rs (fun _ => VNone) %s)'%s.expr())
    def __len__(s): return len(s.reps)
    def get_qc(s,i,t,f): return FlagSym(s.expr(),i,t,f)
    def setvar(s,i,k,v): s.do('(fun v => setvar_at v %d %s %s)'%(i,S(k),OQ(v)))
    def spike_check(s,p): s.do('(spike_check earth {| sk_space := %s; sk_time := %s; sk_ship := %s; sk_buoy := %s; sk_n := %s |} "SST")'%(Qs(p['max_gradient_space']),Qs(p['max_gradient_time']),Qs(p['ship_delta_t']),Qs(p['buoy_delta_t']),Z(p['number_of_neighbours'])))
    def iquam_track_check(s,p): s.do('(iquam_track_check earth %s)'%iq(p))
    def track_check(s,p): s.do('(track_check earth {| tk_dir := %s; tk_speed := %s; tk_abs := %s; tk_mid := %s |})'%(Qs(p['max_direction_change']),Qs(p['max_speed_change']),Qs(p['max_absolute_speed']),Qs(p['max_midpoint_discrepancy'])))
    def find_saturated_runs(s,p): s.do('(find_saturated_runs earth %s %s)'%(Qs(p['min_time_threshold']),Z(p['shortest_run'])))
    def rep_feed(s): return [VRep(s,i) for i in range(len(s.reps))]
class VRep:
    def __init__(s,v,i): s.v=v; s.i=i
    def get_qc(s,t,f): return s.v.get_qc(s.i,t,f)
ex=types.ModuleType('Extended_IMMA')
ex.MarineReport=ex.MarineReportQC=Report; ex.Voyage=Voyage
ex.safe_filename=lambda s: Sym('VStr (safe_filename %s)'%S(s))
ex.get_threshold_multiplier=lambda n,l,m: call('rs ofQ (get_threshold_multiplier %s %s %s%%Q)'%(Z(n),L(Z,l),L(Qs,m)))
class ClimVariable:
    def __init__(s,*a): raise Skip('a pair in the model')
ex.ClimVariable=ClimVariable
class Field:
    def __init__(s,f): s.f=f
    n=property(lambda s: Sym('ofZ (cn %s)'%s.f.c()))
    res=property(lambda s: Sym('ofQ (clim_res %s)'%s.f.c()))
    def get_tindex(s,m,d): return call('rs ofZ (get_tindex %s %s %s)'%(s.f.c(),Z(m),Z(d)))
    def get_value(s,la,lo,m,d): return call('rs (opt ofQ) (get_value %s %s %s %s %s)'%(s.f.c(),Qs(la),Qs(lo),Z(m),Z(d)))
    from_filename=staticmethod(nofile)
clim=types.ModuleType('Climatology'); clim.Climatology=Field
class ListSym:
    pass
class Grid:
    def __init__(s): s.g='(Ok [])'; s.b=None
    def add_rep(s,la,lo,yr,mo,dy,an):
        r=la.r
        s.g='(on %s (fun g => let! r := %s in add_rep (%s) (%s) (getint r "MO") (getint r "DY") (%s) g))'%(s.g,r.expr(),la.raw,lo.raw,an.raw)
    def take_average(s): s.g='(on %s (fun g => Ok (take_average g)))'%s.g
    def get_buddy_limits_with_parameters(s,sd,li,th,mu):
        s.b='(on %s (get_buddy_limits_with_parameters n_xspan %s %s %s %s))'%(s.g,sd.f.c(),L(lambda t:'(%s, %s, %s)'%tuple(map(Z,t)),li),L(lambda t:L(Z,t),th),L(lambda t:L(Qs,t)+'%Q',mu))
    def get_new_buddy_limits(s,a,b,c,limits=[2,2,4],sigma_m=1.0,noise_scaling=3.0):
        s.b='(on %s (get_new_buddy_limits n_xspan n_sqrt %s %s %s (%s, %s, %s) %s %s))'%(s.g,a.f.c(),b.f.c(),c.f.c(),*map(Z,limits),Qs(sigma_m),Qs(noise_scaling))
    def look(s,w,la,lo,mo,dy):
        if isinstance(la,RVar): a='let! r := %s in get_buddy b (%s) (%s) (getint r "MO") (getint r "DY")'%(la.r.expr(),la.raw,lo.raw)
        else: a='get_buddy b %s %s %s %s'%(OQ(la),OQ(lo),OZ(mo),OZ(dy))
        return Sym('rs (fun p => ofQ (%s p)) (on %s (fun b => %s))'%(w,s.b,a))
    def get_buddy_mean(s,*a): return s.look('fst',*a)
    def get_buddy_stdev(s,*a): return s.look('snd',*a)
    def get_neighbour_anomalies(s,r,x,y,p):
        e='(match %s with Ok g => get_neighbour_anomalies n_xspan g (%s, %s, %s) (%s, %s, %s) | Err _ => [] end)'%(s.g,*map(Z,r),Z(x),Z(y),Z(p))
        return PairList(e,'fst','ofQ'),PairList(e,'snd','ofZ')
class PairList(ListSym):
    def __init__(s,e,w,k): s.e='(map %s %s)'%(w,e); s.k=k
    def __len__(s): checks.append(None); return 0
    def has(s,a): return 'existsb (fun x => same (%s x) %s) %s'%(s.k,val(a),s.e)
    def __getitem__(s,i): return Sym('rs %s (at_ %s %d)'%(s.k,s.e,i))
ex.Np_Super_Ob=Grid
class Filter:
    def __init__(s): s.f=[]
    def add_qc_filter(s,t,f,v): s.f.append('(%s, %s, %s)'%(S(t),S(f),Z(v)))
    def e(s): return '['+'; '.join(s.f)+']'
    def test_report(s,r): return r.get('ofZ (test_report %s r)'%s.e())
    def split_reports(s,d):
        c='(on (reports_of [%s]) (fun l => split_reports %s (fold_left deck_append l new_deck)))'%('; '.join(r.expr() for r in d.l),s.e())
        return DeckSym(c,'p'),DeckSym(c,'f')
class DeckSym(ListSym):
    def __init__(s,c,w): s.n="rs (fun t => let '(p, f, d) := t in ofN (length (d_reps %s))) %s"%(w,c)
class Deck:
    def __init__(s): s.l=[]
    def append(s,r): s.l.append(r)
ex.QC_filter=Filter; ex.Deck=Deck
def mylen(x):
    if isinstance(x,DeckSym): return Sym(x.n)
    if isinstance(x,PairList): return Sym('ofN (length %s)'%x.e)
    if isinstance(x,SList): return x.len()
    return len(x)
# ---- trackqc
tqc=types.ModuleType('trackqc')
tqc.track_day_test=lambda y,m,d,h,la,lo,elevdlim=-2.5: call('rs ofB (track_day_test n_elevation %s %s %s %s %s %s %s)'%(OZ(y),OZ(m),OZ(d),OQ(h),OQ(la),OQ(lo),Qs(elevdlim)))
tqc.trim_mean=lambda l,t: call('ofX (trim_mean %s%%Q %s)'%(L(Qs,l),Z(t)))
tqc.trim_std=lambda l,t: call('match trim_var %s%%Q %s with Fin q => ofQ (n_sqrt q) | x => ofX x end'%(L(Qs,l),Z(t)))
tqc.aground_check=lambda r,s,a,b: r.owner.do('(aground_check earth %s %s %s)'%(Z(s),Z(a),Z(b)))
tqc.new_aground_check=lambda r,s,a: r.owner.do('(new_aground_check earth %s %s)'%(Z(s),Z(a)))
tqc.speed_check=lambda r,s,a,b: r.owner.do('(speed_check earth %s %s %s)'%(Qs(s),Qs(a),Qs(b)))
tqc.new_speed_check=lambda r,p,s,a: r.owner.do('(new_speed_check earth %s %s %s)'%(iq(p),Qs(s),Qs(a)))
def tail(r,a,b,c,d,e,f,g,h):
    r.owner.do('(sst_tail_check n_elevation n_sqrt {| tl_long := %s; tl_long_n := %s; tl_short := %s; tl_short_n := %s; tl_bad := %s; tl_inter := %s; tl_intra := %s; tl_lim := %s |})'%(Z(a),Qs(b),Z(c),Qs(d),Z(e),Qs(f),Qs(g),Qs(h)))
tqc.sst_tail_check=tail
def bias(r,a,b,c,d,e,f,g):
    r.owner.do('(sst_biased_noisy_check n_elevation n_sqrt {| bs_eval := %s; bs_lim := %s; bs_intra := %s; bs_inter := %s; bs_n := %s; bs_bad := %s; bs_bg := %s |})'%(Z(a),Qs(b),Qs(c),Qs(d),Qs(e),Z(f),Qs(g)))
tqc.sst_biased_noisy_check=bias
# ---- track_check
tc=types.ModuleType('track_check')
def inc(la,lo,v,d,t):
    c='(increment_position earth %s %s %s %s %s)'%tuple(map(Qs,(la,lo,v,d,t)))
    c=share(c)
    return Sym('ofQ (fst %s)'%c),Sym('ofQ (snd %s)'%c)
tc.increment_position=inc
tc.modesp=lambda l: call('rs (opt ofQ) (modesp %s)'%L(OQ,l))
class SList(ListSym):
    def __init__(s,c,n): s.c=share(c); s.n=n
    def __len__(s): return s.n
    def len(s): return s.n
    def __getitem__(s,i):
        if i>=s.n: raise IndexError
        if i<0: i+=s.n
        return Sym('rs (fun l => rs (opt ofQ) (at_ l %d)) %s'%(i,s.c))
tc.distr1=lambda v: SList('(on %s (distr1 earth))'%v.expr(),len(v))
tc.distr2=lambda v: SList('(on %s (distr2 earth))'%v.expr(),len(v))
tc.midpt=lambda v: SList('(on %s (midpt earth))'%v.expr(),len(v))
tc.direction_continuity=lambda a,b,c,m=60.0: call('rs (fun b : bool => ofZ (if b then 10 else 0)) (direction_continuity %s %s %s %s)'%(OQ(a),OQ(b),OQ(c),Qs(m)))
tc.speed_continuity=lambda a,b,c,m=10.0: call('ofZ (if speed_continuity %s %s %s %s then 10 else 0)'%(OQ(a),OQ(b),OQ(c),Qs(m)))
sph=types.ModuleType('spherical_geometry'); sph.sphere_distance=noreal
# ---- files
bf=types.ModuleType('BackgroundField')
class Comps:
    def __init__(s,c): s.c=c
    def __getitem__(s,i): return Sym('rs VStr (at_ %s %d)'%(s.c,i))
bf.build_completions=lambda b,s: Comps('(build_completions %s %s)'%(S(b),L(S,s)))
bf.process_string=lambda s,y,m,d: Sym('VStr (process_string %s %s %s %s)'%(S(s),Z(y),Z(m),Z(d)))
bf.make_filename=lambda s,f,y,m,d: Sym('VStr (make_filename %s %s %s %s %s)'%(S(s),S(f),Z(y),Z(m),Z(d)))
bf.icoads_filename_from_stub=lambda d,f,y,m: call('rs (opt VStr) (icoads_filename_from_stub (fun f => match size f with Some _ => true | None => false end) %s %s %s %s)'%(L(S,d),L(S,f),OZ(y),OZ(m)))
bf.get_background_filename=lambda d,f,y,m,dd: call('rs (fun p => opt VStr (fst p)) (get_background_filename size (Some "/scratch/hadjj") %s %s %s %s %s)'%(L(S,d),L(S,f),OZ(y),OZ(m),OZ(dd)))
# ---- counter
ym=types.ModuleType('YMCounter')
class Counter:
    def __init__(s,*a): s.a=a; s.counter=None
    def e(s): return '{| yc_n := 12; yc_months := map (fun m => (%d, m)) [1; 2; 3; 4; 5; 6; 7; 8; 9; 10; 11; 12]; yc_counter := %s |}'%(s.a[0],L(Z,s.counter))
    def get_chunks(s,g):
        c='(get_chunks %s %s)'%(Z(g),L(Z,s.counter))
        return ZList('(fst %s)'%c),ZList('(snd %s)'%c)
    def yield_start_and_end_dates(s,g):
        c='(on (yield_start_and_end_dates %s %s) (fun l => at_ (rev l) 0))'%(s.e(),Z(g))
        t=lambda k: "rs (fun t => let '(y1, m1, y2, m2, cl) := t in %s) %s"%(k,c)
        return [tuple(Sym(t('ofZ '+k)) for k in ('y1','m1','y2','m2'))+(Cl(t),)]
class ZList(ListSym):
    def __init__(s,c): s.c=c
    def __getitem__(s,i): return Sym('rs ofZ (at_ %s %d)'%(s.c,i))
class Cl(ListSym):
    def __init__(s,t): s.t=t
    def __getitem__(s,i): return Sym(s.t('rs VStr (at_ cl %d)'%i))
    def has(s,a): return 'same %s (VNum 1)'%('('+s.t('ofB (existsb (String.eqb %s) cl)'%S(a))+')')
ym.YMCounter=Counter
_len=mylen
def mylen2(x):
    if isinstance(x,ZList): return Sym('ofN (length %s)'%x.c)
    return _len(x)
# ---- run
ut=types.ModuleType('unittest'); ut.TestCase=TestCase; ut.main=lambda:None
class CP:
    def ConfigParser(s=None): return CP()
    def read(s,f): pass
    def get(s,a,b): raise Skip('field read from a file')
cp=types.ModuleType('ConfigParser'); cp.ConfigParser=CP
nc=types.ModuleType('netCDF4'); nc.Dataset=nofile
ma=types.ModuleType('numpy.ma'); np.ma=ma
si=types.ModuleType('SimpleIMMA'); si.IMMA=IMMA
i1=types.ModuleType('IMMA1'); i1.IMMA=IMMA
for m in (np,ma,qc,ex,clim,tqc,tc,sph,bf,ym,ut,cp,nc,si,i1): sys.modules[m.__name__]=m
import builtins
def run(fname,target,imports,partial_setup=False):
    src=open(PINNED+fname).read().replace('\\N','\\\\N')
    if fname=='test_Climatology.py':
        # only the field made in the test itself is available
        src=src.replace("self.sst = clim","self.sst = None and clim").replace("self.mat = clim","self.mat = None and clim").replace("self.sst_daily = clim","self.sst_daily = None and clim")
    if fname=='test_qc.py':
        src=re.sub(r"self\.(sst|mat|sdv) = climatology.variables\['\w+'\]\[:\]",r"self.\1 = None",src)
        src=src.replace("climatology = Dataset(sst_climatology_file)","climatology = None").replace("climatology = Dataset(mat_climatology_file)","").replace("climatology = Dataset(stdev_climatology_file)","")
    CP.get=lambda s,a,b: None
    env={'__name__':fname[:-3],'len':mylen2,'open':(lambda f,m='r': sys.stdout if 'null' in f else nofile())}
    exec(compile(src,fname,'exec'),env)
    out=[];skipped=[];n=0
    for cname,c in list(env.items()):
        if not (isinstance(c,type) and issubclass(c,TestCase) and c is not TestCase): continue
        for mname,meth in list(vars(c).items()):
            if not mname.startswith('test'): continue
            checks.clear(); calls.clear(); lets.clear()
            t=c()
            name=cname+'_'+mname
            key=(fname,cname,mname)
            if key in HAND:
                checks.append(HAND[key])
            else:
              try:
                t.setUp(); checks.clear(); calls.clear()
                getattr(t,mname)()
                if re.match(r'test_(new_)?error',mname) and fname=='test_trackqc.py' and calls:
                    # the check raises and leaves the flags as they are: in the model an error carries no state
                    assert all(isinstance(k,Flags) and set(k.l.values())=={9} for k in checks)
                    checks.clear(); checks.append('asserts %s'%calls[-1])
              except Skip as e:
                skipped.append('%s.%s: %s'%(cname,mname,e)); continue
              except (AttributeError,TypeError) as e:
                skipped.append('%s.%s: %s'%(cname,mname,'field read from a file' if 'None' in str(e) else 'PY '+repr(e))); continue
            if not checks: skipped.append('%s.%s: no check'%(cname,mname)); continue
            n+=1
            cs=[render(k) for k in checks]
            pre=''.join('let %s := %s in\n  '%(v,e) for e,v in lets.items())
            if key in FAIL:
                out.append('(** %s *)\nDefinition %s : bool := Eval vm_compute in (%sall [%s]).\nExample %s_is : %s = false.\nProof. reflexivity. Qed.'%(FAIL[key],name,pre,';\n  '.join(cs),name,name))
            else:
                out.append('Definition %s : bool := Eval vm_compute in (%sall [%s]).\nExample %s_is : %s = true.\nProof. reflexivity. Qed.'%(name,pre,';\n  '.join(cs),name,name))
    head='(** The unit tests of %s, run on the model (generated from the test file; these are tests, not proofs).\n'%fname
    sk={}
    for s in skipped:
        a,b=s.rsplit(': ',1); sk.setdefault(b,[]).append(a)
    for b in sk: head+='    Left out (%s): %s.\n'%(b,', '.join(sk[b]))
    head=head.rstrip('\n')+' *)\n'
    head+='Require Import String ZArith QArith List Bool.\nRequire Import %s Verif.T_Num Verif.T_Check.\nImport ListNotations.\nOpen Scope string_scope.\nOpen Scope Z_scope.\n\n'%' '.join('Verif.'+i for i in imports)
    head+=PRE.get(fname,'')
    open(os.path.join(os.path.dirname(os.path.abspath(__file__)), '../rocq/theories', target + '.v'), 'w').write(head+'\n'.join(out)+'\n')
    print(fname,n,'tests;',len(skipped),'left out'); 
    for b in sk: print('   ',b,len(sk[b]),sk[b][:3])
HAND={}; FAIL={}; PRE={}
exec(open(os.path.join(os.path.dirname(os.path.abspath(__file__)), 'hand.py')).read())
run('test_qc.py','T_Qc',['M_Base','M_Calendar','M_Checks','M_Stats','M_Grid','M_Sun'])
run('test_trackqc.py','T_Trackqc',['M_Base','M_Report','M_Stats','M_Sun','M_Voyage','M_Drifter'])
run('test_track_check.py','T_TrackCheck',['M_Base','M_Report','M_Voyage','M_Track'])
run('test_Extended_IMMA.py','T_Extended',['M_Base','M_Report','M_Files','M_Stats','M_Grid','M_Voyage','M_Track','M_Buddy','M_Print'])
run('test_YMCounter.py','T_YMCounter',['M_Base','M_Chunks'])
run('test_BackgroundField.py','T_Background',['M_Base','M_Files'])
run('test_Climatology.py','T_Climatology',['M_Base','M_Grid'])
