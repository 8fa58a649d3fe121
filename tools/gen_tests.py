#!/usr/bin/env python3
"""Translate /repo's unit tests to checks of the Coq model (Validation/*Test.v)."""
import re, struct, math, os, sys, datetime
REPO='/repo/'; OUT=os.path.join(os.path.dirname(os.path.abspath(__file__)),'../rocq/theories/Validation/')

# ---------- C++ floats ----------
def rnd(x):
    try: return struct.unpack('f',struct.pack('f',x))[0]
    except OverflowError: return math.inf if x>0 else -math.inf
class F:
    def __init__(s,v): s.v=rnd(float(v))
    def _b(s,o,op):
        if isinstance(o,F): return F(op(s.v,o.v))
        if isinstance(o,int): return F(op(s.v,rnd(float(o))))
        if isinstance(o,float): return op(s.v,o)
        return NotImplemented
    def __add__(s,o): return s._b(o,lambda a,b:a+b)
    def __sub__(s,o): return s._b(o,lambda a,b:a-b)
    def __mul__(s,o): return s._b(o,lambda a,b:a*b)
    def __truediv__(s,o): return s._b(o,lambda a,b:a/b)
    def __radd__(s,o): return s._b(o,lambda a,b:b+a)
    def __rsub__(s,o): return s._b(o,lambda a,b:b-a)
    def __rmul__(s,o): return s._b(o,lambda a,b:b*a)
    def __rtruediv__(s,o): return s._b(o,lambda a,b:b/a)
    def __neg__(s): return F(-s.v)
def tofloat(x):
    if isinstance(x,(F,Sym)): return x
    return F(x)
def num(x): return x.v if isinstance(x,F) else float(x)
def std_pow(a,b): return num(a)**num(b)
def std_sqrt(a): return F(math.sqrt(a.v)) if isinstance(a,F) else math.sqrt(a)
def std_log(a): return F(math.log(a.v)) if isinstance(a,F) else math.log(a)
FMAX=F(3.4028234663852886e38)

# ---------- recorder ----------
class Rec:
    def __init__(s): s.lines=[]; s.n=0; s.checks=[]; s.line=0
    def fresh(s,p='x'): s.n+=1; return f'{p}{s.n}'
    def let(s,e,p='x'):
        v=s.fresh(p); s.lines.append(f'let {v} := {e} in'); return v
    def bind(s,e,p='x'):
        v=s.fresh(p); s.lines.append(f'do {v} <- {e} ;'); return v
    def check(s,b): s.checks.append((s.line,b)); s.cnt=1
    def out(s,name):
        body='\n  '.join(s.lines+[f"let c{i} := {b} in" for i,b in []])
        fin='Done (failures ['+';\n    '.join(f'({l}, {b})' for l,b in s.checks)+'])'
        return f'Definition {name} : outcome (list Z) :=\n  {body}\n  {fin}.\n'
R=None
class Sym:
    """a Coq expression of kind f(loat) z nat b ob str oz"""
    def __init__(s,k,e): s.k=k; s.e=e
    def _b(s,o,op,rev=False):
        assert s.k=='f'; a,b=s.e,cf(o)
        return Sym('f',f'({op} {b} {a})' if rev else f'({op} {a} {b})')
    def __add__(s,o): return s._b(o,'fadd')
    def __sub__(s,o): return s._b(o,'fsub')
    def __mul__(s,o): return s._b(o,'fmul')
    def __truediv__(s,o): return s._b(o,'fdiv')
    def __radd__(s,o): return s._b(o,'fadd',True)
    def __rsub__(s,o): return s._b(o,'fsub',True)
    def __rmul__(s,o): return s._b(o,'fmul',True)
    def __rtruediv__(s,o): return s._b(o,'fdiv',True)
def fl(x):
    v=tofloat(x).v
    if v==0:
        assert math.copysign(1,v)>0; return '(fl 0 0)'
    m,e=math.frexp(v); m=int(m*2**24); e-=24
    while m%2==0: m//=2; e+=1
    z=lambda n:f'({n})' if n<0 else str(n)
    return f'(fl {z(m)} {z(e)})'
def cf(x):
    if isinstance(x,Sym): assert x.k=='f'; return x.e
    return fl(x)
def z(n): return f'({n})' if n<0 else str(n)
def cz(x):
    if isinstance(x,Sym):
        assert x.k in('z','nat'),x.k
        return x.e if x.k=='z' else f'(Z.of_nat {x.e})'
    assert isinstance(x,int) and not isinstance(x,bool); return z(x)
def cstr(s): return '"'+s.replace('"','""')+'"%string'
def clist(l): return '['+'; '.join(l)+']'

# ---------- gtest ----------
def chk_const(b): assert b,f'line {R.line}'; R.check('true')
def EXPECT_FLOAT_EQ(a,b): R.check(f'feq {cf(a)} {cf(b)}')
def EXPECT_EQ(a,b):
    if isinstance(a,Iter): a,b=b,a
    if isinstance(b,Iter): R.check(f'({cz(a)} =? {b.i})'); return
    if isinstance(a,FT):
        t=int(datetime.datetime.fromisoformat(b).timestamp()); R.check(f'({a.e} =? {t})'); return
    if isinstance(a,St): R.check(f'(match {a.e} with None => true | Some _ => false end)'); return
    if isinstance(a,str) or isinstance(b,str) or (isinstance(a,Sym) and a.k=='str'):
        s=lambda x:x.e if isinstance(x,Sym) else cstr(x)
        R.check(f'String.eqb {s(a)} {s(b)}'); return
    if not isinstance(a,Sym) and not isinstance(b,Sym): chk_const(a==b); return
    R.check(f'({cz(a)} =? {cz(b)})')
def truth(x,want):
    if isinstance(x,Sym):
        if x.k=='ob': return R.check(f'is_bool {x.e} {"true" if want else "false"}')
        assert x.k=='b',x.k
        return R.check(x.e if want else f'negb ({x.e})')
    chk_const(bool(x)==want)
def EXPECT_TRUE(x): truth(x,True)
def EXPECT_FALSE(x): truth(x,False)
def EXPECT_GE(a,b): chk_const(a>=b)
ASSERT_TRUE=EXPECT_TRUE; ASSERT_FALSE=EXPECT_FALSE; ASSERT_EQ=EXPECT_EQ; ASSERT_FLOAT_EQ=EXPECT_FLOAT_EQ

# ---------- messages ----------
class Msg:
    fl_=(); int_=()
    def __init__(s):
        for n in s.fl_: s.__dict__['_'+n]=F(0)
        for n in s.int_: s.__dict__['_'+n]=0
        s.has=set()
    def __getattr__(s,n):
        if n.startswith('__'): raise AttributeError(n)
        if n.startswith('set_'):
            f=n[4:]; assert f in s.fl_+s.int_,n
            def st(v):
                s.__dict__['_'+f]=tofloat(v) if f in s.fl_ else v; s.has.add(f)
            return st
        if n in s.fl_+s.int_: return lambda: s.__dict__['_'+n]
        raise AttributeError(n)
    def val(s,n):
        v=s.__dict__['_'+n]; return cf(v) if n in s.fl_ else cz(v)
class OhlcTick(Msg):
    fl_=('open','high','low','close','volume'); int_=('timestamp_sec',)
    @property
    def e(s): return '(OhlcTick '+' '.join(s.val(n) for n in s.int_+s.fl_)+')'
class PriceRecord(Msg):
    fl_=('price','volume'); int_=('timestamp_sec',)
    @property
    def e(s): return '(PriceRecord '+' '.join(s.val(n) for n in s.int_+s.fl_)+')'
class SideInputRecord(Msg):
    int_=('timestamp_sec',)
    def __init__(s): super().__init__(); s.sig=[]
    def add_signal(s,x): s.sig.append(x)
    @property
    def e(s): return f'(SideRecord {s.val("timestamp_sec")} {clist([cf(x) for x in s.sig])})'
class FeeConfig(Msg):
    fl_=('relative_fee','fixed_fee','minimum_fee')
    @property
    def e(s): return '(FeeConfig '+' '.join(s.val(n) for n in s.fl_)+')'
class AccountConfig(Msg):
    fl_=('start_base_balance','start_quote_balance','base_unit','quote_unit','market_liquidity','max_volume_ratio')
    def __init__(s):
        super().__init__(); s.m=FeeConfig(); s.s=FeeConfig(); s.l=FeeConfig()
        s._market_liquidity=F(1)
    def mutable_market_order_fee_config(s): return s.m
    def mutable_stop_order_fee_config(s): return s.s
    def mutable_limit_order_fee_config(s): return s.l
    @property
    def e(s):
        v=[s.val(n) for n in s.fl_]
        return '(AccountConfig '+' '.join(v[:4]+[s.m.e,s.s.e,s.l.e]+v[4:])+')'
class EvaluationConfig(Msg):
    int_=('start_timestamp_sec','end_timestamp_sec','evaluation_period_months')
    def __init__(s): super().__init__(); s._fast='false'
    @property
    def e(s): return '(EvaluationConfig '+' '.join(s.val(n) for n in s.int_)+f' {s._fast})'
class Order:
    def __init__(s): s.t=s.s=s.a=s.p=None
    def set_type(s,x): s.t=x
    def set_side(s,x): s.s=x
    def set_base_amount(s,x): s.a=f'(BaseAmount {cf(x)})'
    def set_quote_amount(s,x): s.a=f'(QuoteAmount {cf(x)})'
    def set_price(s,x): s.p=cf(x)
    def mutable(s): return s
    @property
    def e(s):
        o=lambda x:'None' if x is None else f'(Some {x})'
        return f'(Order {o(s.t)} {o(s.s)} {s.a or "NoAmount"} {o(s.p)})'

class Vec(list):
    elem=None; sym=None
    def begin(s): return Iter(s,0)
    def end(s): return Iter(s,len(s))
    def emplace_back(s,*a):
        s.append(a[0] if a else s.elem())
    def push_back(s,x): s.append(x)
    def back(s): return s[-1] if s.sym is None else s.sym.back()
    def empty(s): return len(s)==0
    def size(s): return len(s) if s.sym is None else s.sym.size()
    def capacity(s): return 10**9
    def reserve(s,n): pass
    def clear(s): list.clear(s); s.sym=None
    def __getitem__(s,i): return list.__getitem__(s,i) if s.sym is None else s.sym[i]
    @property
    def e(s): return clist([x.e if hasattr(x,'e') else (cf(x) if isinstance(x,F) else cz(x)) for x in s])
def vec(t):
    def mk(*a):
        v=Vec(*a); v.elem=t; return v
    return mk
class Iter:
    def __init__(s,v,i): s.v=v; s.i=i
    def __add__(s,k): return Iter(s.v,s.i+k)
def rng(b,e): assert b.v is e.v; return Vec(list.__getitem__(b.v,slice(b.i,e.i))).e
PriceHistory=vec(PriceRecord); OhlcHistory=vec(OhlcTick); SideHistory=vec(SideInputRecord)

# symbolic containers
class SObj:
    def __init__(s,e): s.e=e
class STick(SObj):
    def __getattr__(s,n):
        if n in OhlcTick.fl_: return lambda: Sym('f',f'({n} {s.e})')
        if n=='timestamp_sec': return lambda: Sym('z',f'(timestamp_sec {s.e})')
        raise AttributeError(n)
class SPrice(SObj):
    def timestamp_sec(s): return Sym('z',f'(pr_timestamp_sec {s.e})')
    def price(s): return Sym('f',f'(pr_price {s.e})')
    def volume(s): return Sym('f',f'(pr_volume {s.e})')
class SGap(SObj):
    first=property(lambda s:Sym('z',f'(fst {s.e})')); second=property(lambda s:Sym('z',f'(snd {s.e})'))
MK={'tick':(STick,'tick0'),'price':(SPrice,'price0'),'gap':(SGap,'(0, 0)'),
    'z':(lambda e:Sym('z',e),'0'),'f':(lambda e:Sym('f',e),'(fl 0 0)')}
class SList(SObj):
    def __init__(s,k,e): s.k=k; s.e=e
    def size(s): return Sym('z',f'(size {s.e})')
    def empty(s): return Sym('b',f'(size {s.e} =? 0)')
    def __getitem__(s,i):
        if isinstance(i,Sym): i=i.e
        f,d=MK[s.k]; return f(f'(idx {d} {s.e} {i})')
    def back(s): f,d=MK[s.k]; return f(f'(List.last {s.e} {d})')

# ---------- base ----------
class SPair:
    def __init__(s,e): s.first=Sym('nat',f'(fst {e})'); s.second=Sym('nat',f'(snd {e})')
def HistorySubset(h,a,b): return SPair(R.let(f'HistorySubset pr_timestamp_sec {h.e} {z(a)} {z(b)}'))
def HistorySubsetCopy(h,a,b): return SList('price',R.bind(f'HistorySubsetCopy pr_timestamp_sec {h.e} {z(a)} {z(b)}'))
def CheckPriceHistoryTimestamps(b,e): return Sym('b',f'CheckPriceHistoryTimestamps {rng(b,e)}')
def GetPriceHistoryGaps(b,e,s,t,n): return SList('gap',R.let(f'GetPriceHistoryGaps {rng(b,e)} {z(s)} {z(t)} {n}%nat'))
def RemoveOutliers(b,e,dev,idxv):
    v=R.let(f'RemoveOutliers {rng(b,e)} {fl(dev)} {"None" if idxv is None else f"(Some {idxv.e})"}')
    if idxv is not None: idxv.sym=SList('z',f'(match snd {v} with Some l => l | None => [] end)')
    return SList('price',f'(fst {v})')
class SMap(SObj):
    def size(s): return Sym('z',f'(size {s.e})')
    def empty(s): return Sym('b',f'(size {s.e} =? 0)')
    def at(s,k): return Sym('ob',f'(map_at {s.e} {k})')
def GetOutlierIndicesWithContext(v,n,l,r,last): return SMap(R.let(f'GetOutlierIndicesWithContext {v.e} {n} {l} {r} {last}'))
def Resample(b,e,rate): return SList('tick',R.bind(f'Resample {rng(b,e)} {rate}'))
def AddPriceRecord(t,p,v,h):
    h.emplace_back(); h[-1].set_timestamp_sec(t); h[-1].set_price(p); h[-1].set_volume(v)
def ExpectNearPriceRecord(a,b):
    EXPECT_EQ(a.timestamp_sec(),b.timestamp_sec()); EXPECT_FLOAT_EQ(a.price(),b.price()); EXPECT_FLOAT_EQ(a.volume(),b.volume())
def ExpectNearOhlcTick(a,t,o,h,l,c,v):
    EXPECT_EQ(a.timestamp_sec(),t)
    for n,x in zip(OhlcTick.fl_,(o,h,l,c,v)): EXPECT_FLOAT_EQ(getattr(a,n)(),x)
ExpectOhlcTick=ExpectNearOhlcTick

# ---------- account ----------
AF=('base_balance','quote_balance','total_fee','base_unit','quote_unit','market_liquidity','max_volume_ratio')
EX={'BuyBase','BuyAtQuote','SellBase','SellAtQuote','MarketBuy','MarketBuyAtQuote','MarketSell','MarketSellAtQuote',
    'StopBuy','StopBuyAtQuote','StopSell','StopSellAtQuote','LimitBuy','LimitBuyAtQuote','LimitSell','LimitSellAtQuote','ExecuteOrder'}
def arg(x): return x.e if not isinstance(x,(F,int,float,Sym)) else cf(x)
class Account:
    def __init__(s): s.__dict__['e']='account0'
    def __setattr__(s,n,v):
        assert n in AF,n; s.__dict__['e']=R.let(f'set_{n} {s.e} {cf(v)}','a')
    def __getattr__(s,n):
        if n in AF: return Sym('f',f'({n} {s.e})')
        if n=='InitAccount':
            def f(c): s.__dict__['e']=R.let(f'InitAccount {c.e}','a')
            return f
        if n in('GetFee','GetMarketBuyPrice','GetMarketSellPrice','GetStopBuyPrice','GetStopSellPrice','GetMaxBaseAmount'):
            return lambda *a: Sym('f',f'({n} {s.e} '+' '.join(arg(x) for x in a)+')')
        if n in EX:
            def f(*a):
                a=list(a)
                if n in('BuyAtQuote','SellAtQuote') and len(a)==3: a.append(FMAX)
                p=R.bind(f'{n} '+' '.join(arg(x) for x in a)+f' {s.e}','r')
                s.__dict__['e']=R.let(f'snd {p}','a')
                return Sym('b',f'(fst {p})')
            return f
        raise AttributeError(n)
def SetupOhlcTick(t):
    t.set_open(F(10)); t.set_high(F(20)); t.set_low(F(2)); t.set_close(F(15)); t.set_volume(F('1234.56'))

# ---------- side input ----------
kSecondsPer4Hours=4*3600; kSecondsPer8Hours=8*3600; kSecondsPerDay=86400; kSecondsPerHour=3600
def Add8HourSignals(sig,h):
    t=1483228800 if not h else h[-1].timestamp_sec()+kSecondsPer8Hours
    h.emplace_back()
    for x in sig: h[-1].add_signal(x)
    h[-1].set_timestamp_sec(t)
def AddSignals(sig,t,h):
    h.emplace_back(); h[-1].set_timestamp_sec(t)
    for x in sig: h[-1].add_signal(x)
class SideInput:
    def __init__(s,h): s.e=R.bind(f'NewSideInput {h.e}','si')
    def GetNumberOfRecords(s): return Sym('z',f'(GetNumberOfRecords {s.e})')
    def GetNumberOfSignals(s): return Sym('z',f'(GetNumberOfSignals {s.e})')
    def GetSideInputTimestamp(s,i): return Sym('z',R.bind(f'GetSideInputTimestamp {s.e} {i}'))
    def GetSideInputSignal(s,i,j): return Sym('f',R.bind(f'GetSideInputSignal {s.e} {i} {j}'))
    def GetSideInputSignals(s,i,v):
        v.sym=SList('f',R.bind(f'GetSideInputSignals {s.e} {i} {v.e}'))
    def GetSideInputIndex(s,t,p=None):
        if p is None: return Sym('z',f'(GetSideInputIndex {s.e} {z(t)})')
        return Sym('z',R.bind(f'GetSideInputIndexHint {s.e} {z(t)} {z(p)}'))

# ---------- indicators ----------
EXAMPLE=[(100,150,80,120),(120,180,100,150),(150,250,100,140),(140,150,80,100),(100,120,20,50),(50,100,40,80),
 (80,180,50,150),(150,250,120,240),(240,450,220,400),(400,450,250,300),(300,700,220,650),(650,800,600,750)]
def add_tick(h,o,hi,lo,c,v,t):
    h.emplace_back(); x=h[-1]
    x.set_open(o); x.set_high(hi); x.set_low(lo); x.set_close(c); x.set_volume(v); x.set_timestamp_sec(t)
def Prepare8h(h):
    for i,(o,a,b,c) in enumerate(EXAMPLE): add_tick(h,o,a,b,c,F(1000),1483228800+i*kSecondsPer8Hours)
    h[-1].set_timestamp_sec(h[-1].timestamp_sec()+kSecondsPerDay+2*kSecondsPer8Hours)
class Ind:
    G={}
    def __getattr__(s,n):
        if n in s.G:
            g=s.G[n]; k='z' if n.startswith('GetNum') or n=='GetWindowSize' else 'f'
            return lambda: Sym(k,f'({g} {s.e})')
        raise AttributeError(n)
class SlidingWindowMeanAndVariance(Ind):
    G=dict(GetMean='mv_GetMean',GetVariance='mv_GetVariance',GetStandardDeviation='mv_GetStandardDeviation',
           GetNumValues='mv_num_values',GetWindowSize='mv_GetWindowSize')
    def __init__(s,w): s.e=R.let(f'NewMeanVar {w}')
    def AddNewValue(s,x): s.e=R.let(f'mv_AddNewValue {s.e} {cf(x)}')
    def UpdateCurrentValue(s,x): s.e=R.bind(f'mv_UpdateCurrentValue {s.e} {cf(x)}')
class ExponentialMovingAverageHelper(Ind):
    G=dict(GetExponentialMovingAverage='current_ema',GetNumValues='ema_num_values')
    def __init__(s): s.e='NewEmaHelper'
    def AddNewValue(s,x,w): s.e=R.bind(f'ema_AddNewValue {s.e} {cf(x)} {cf(w)}')
    def UpdateCurrentValue(s,x,w): s.e=R.bind(f'ema_UpdateCurrentValue {s.e} {cf(x)} {cf(w)}')
class SlidingWindowMinimum(Ind):
    G=dict(GetSlidingWindowMinimum='sm_Get',GetNumValues='sm_num_values',GetWindowSize='sm_GetWindowSize')
    def __init__(s,w): s.e=R.bind(f'NewSlidingMin {w}')
    def AddNewValue(s,x): s.e=R.bind(f'sm_AddNewValue {s.e} {cf(x)}')
    def UpdateCurrentValue(s,x): s.e=R.bind(f'sm_UpdateCurrentValue {s.e} {cf(x)}')
class SlidingWindowMaximum(Ind):
    G=dict(GetSlidingWindowMaximum='sx_Get',GetNumValues='sm_num_values',GetWindowSize='sm_GetWindowSize')
    def __init__(s,w): s.e=R.bind(f'NewSlidingMin {w}')
    def AddNewValue(s,x): s.e=R.bind(f'sx_AddNewValue {s.e} {cf(x)}')
    def UpdateCurrentValue(s,x): s.e=R.bind(f'sx_UpdateCurrentValue {s.e} {cf(x)}')
class SimpleMovingAverage(Ind):
    G=dict(GetSimpleMovingAverage='sma_Get',GetNumOhlcTicks='sma_GetNumOhlcTicks')
    def __init__(s,n,p): s.n,s.p=n,p; s.e=R.bind(f'NewSma {n} {p}')
    def Update(s,t): s.e=R.bind(f'sma_Update {s.n} {s.p} {s.e} {t.e}')
class ExponentialMovingAverage(Ind):
    G=dict(GetExponentialMovingAverage='ema_Get',GetNumOhlcTicks='ema_GetNumOhlcTicks')
    def __init__(s,sm,n,p): s.w=f'(ema_weight {fl(sm)} {n})'; s.p=p; s.e=R.bind(f'NewEma {p}')
    def Update(s,t): s.e=R.bind(f'ema_Update {s.w} {s.p} {s.e} {t.e}')
class MovingAverageConvergenceDivergence(Ind):
    G=dict(GetFastExponentialMovingAverage='macd_GetFast',GetSlowExponentialMovingAverage='macd_GetSlow',
           GetMACDSeries='macd_GetSeries',GetMACDSignal='macd_GetSignal',GetDivergence='macd_GetDivergence',
           GetNumOhlcTicks='macd_GetNumOhlcTicks')
    def __init__(s,f,sl,sg,p): s.a=(f,sl,sg,p); s.e=R.bind(f'NewMacd {p}')
    def Update(s,t): s.e=R.bind('macd_Update %d %d %d %d '%s.a+f'{s.e} {t.e}')
class RelativeStrengthIndex(Ind):
    G=dict(GetUpwardChangeModifiedMovingAverage='rsi_GetUp',GetDownwardChangeModifiedMovingAverage='rsi_GetDown',
           GetRelativeStrengthIndex='rsi_Get',GetNumOhlcTicks='rsi_GetNumOhlcTicks')
    def __init__(s,n,p): s.n,s.p=n,p; s.e=R.bind(f'NewRsi {p}')
    def Update(s,t): s.e=R.bind(f'rsi_Update {s.n} {s.p} {s.e} {t.e}')
class StochasticOscillator(Ind):
    G=dict(GetLow='stoch_GetLow',GetHigh='stoch_GetHigh',GetK='stoch_GetK',GetFastD='stoch_GetFastD',
           GetSlowD='stoch_GetSlowD',GetNumOhlcTicks='stoch_GetNumOhlcTicks')
    def __init__(s,n,p): s.p=p; s.e=R.bind(f'NewStoch {n} {p}')
    def Update(s,t): s.e=R.bind(f'stoch_Update {s.p} {s.e} {t.e}')
class Volatility(Ind):
    G=dict(GetVolatility='vol_Get',GetNumOhlcTicks='vol_GetNumOhlcTicks')
    def __init__(s,n,p): s.p=p; s.e=R.bind(f'NewVolatility {n} {p}')
    def Update(s,t,b,q): s.e=R.bind(f'vol_Update {s.p} {s.e} {t.e} {cf(b)} {cf(q)}')
class LastNOhlcTicks:
    def __init__(s,n,p):
        s.n,s.p=n,p; R.bind(f'LastN_check {n} {p}'); s.e='(([] : list ohlc_tick), ([] : list tick_event))'; s.obs={}
    def watch(s,v,f): s.obs[f]=v; s.upd()
    def upd(s):
        for f,v in s.obs.items(): v.sym=SList('tick',f'({f} (snd {s.e}))')
    def Update(s,t): s.e=R.bind(f'LastN_Update record_event {s.n} {s.p} {s.e} {t.e}'); s.upd()
    def GetLastNOhlcTicks(s): return SList('tick',f'(rev (fst {s.e}))')

# ---------- time ----------
class St:
    def __init__(s,e): s.e=e
class FT:
    def __init__(s,e): s.e=e
class STime:
    def __init__(s,e): s.e=e
    def ok(s): return Sym('b',f'(match {s.e} with Some _ => true | None => false end)')
    def value(s): return Sym('z',f'(match {s.e} with Some t => t | None => 0 end)')
    def status(s): return St(s.e)
def ParseTime(t): return STime(R.let(f'ParseTime {cstr(t)}','t'))
def FormatTimeUTC(t): return Sym('str',f'(FormatTimeUTC {cz(t)})')
def absl_ToUnixSeconds(t): return t
def absl_FormatTime(t,u): return FT(cz(t))
def AddMonthsToTime(t,n): return Sym('z',f'(AddMonthsToTimestampSec {cz(t)} {z(n)})')
AddMonthsToTimestampSec=AddMonthsToTime
utc=None
def absl_Status(a,b): return None
absl_StatusCode_kInvalidArgument=3

# ---------- logger ----------
class stringstream:
    def __init__(s): s.lg=None
    def str(s): return Sym('str',f'(match {s.sel} {s.lg.e} with Some x => x | None => ""%string end)')
class CsvLogger:
    def __init__(s,x,t):
        o=lambda y:'None' if y is None else '(Some ""%string)'
        s.e=f'({o(x)}, {o(t)})'
        if x: x.lg=s; x.sel='fst'
        if t: t.lg=s; t.sel='snd'
    def LogExchangeState(s,t,a,o=None):
        s.e=R.let(f'lg_tick csv_logger {s.e} {t.e} {a.e}' if o is None else f'lg_order csv_logger {s.e} {t.e} {a.e} {o.e}','l')
    def LogTraderState(s,x): s.e=R.let(f'lg_trader csv_logger {s.e} {cstr(x)}','l')
def PrepareLoggerHistory(h):
    add_tick(h,100,150,80,120,1000,1483228800); add_tick(h,120,180,100,150,500,1483315200); add_tick(h,150,250,100,140,800,1483401600)
def PrepareExampleAccount(a):
    a.base_balance=F(2); a.quote_balance=F(1000); a.total_fee=F(50); a.base_unit=F('0.0001'); a.quote_unit=F('0.01')
    a.market_liquidity=F('0.5'); a.max_volume_ratio=F('0.9')

# ---------- eval ----------
def AddDailyOhlcTick(o,a,b,c,h):
    add_tick(h,o,a,b,c,F(1000),1483228800 if not h else h[-1].timestamp_sec()+86400)
def SetupDailyOhlcHistory(h):
    for x in EXAMPLE[:5]: AddDailyOhlcTick(*x,h)
def SetupMonthlyOhlcHistory(h):
    for i,(o,a,b,c) in enumerate(EXAMPLE):
        t=int(datetime.datetime(2017,i+1,1,tzinfo=datetime.timezone.utc).timestamp()); add_tick(h,o,a,b,c,F(1000),t)
class TestTraderEmitter:
    def __init__(s,b,x): s.e=f'(test_emitter {fl(b)} {fl(x)})'
    def GetName(s): return Sym('str',f'(te_name {s.e})')
TestTrader=TestTraderEmitter
class TestTraderWithSideInput:
    e='side_emitter'
class Result:      # ExecutionResult / EvaluationResult
    def __init__(s,kind): s.kind=kind; s.d=None; s.e=None
def ExecutionResult(): return Result('x')
def EvaluationResult(n=None): return Result('v') if n is None else [Result('v') for _ in range(n)]
def logpair(lg): return ('null_logger','false','tt') if lg is None else ('csv_logger','true',lg.e)
def ExecuteTrader(c,b,e,side,fast,tr,lg):
    L,h,st=logpair(lg)
    v=R.bind(f'ExecuteTrader {c.e} {"None" if side is None else f"(Some {side.e})"} {"true" if fast else "false"} {tr.e} {L} {h} {rng(b,e)} {st}','r')
    if lg: lg.e=f'(snd {v})'
    r=Result('x'); r.e=f'(fst {v})'; return r
def EvaluateTrader(c,ec,h,side,te,lg):
    L,hl,st=logpair(lg)
    v=R.bind(f'EvaluateTrader {c.e} {ec.e} {h.e} {"None" if side is None else f"(Some {side.e})"} {te.e} {L} {hl} 100 {st}','r')
    if lg: lg.e=f'(snd {v})'
    r=Result('v'); r.e=f'(fst {v})'; return r
class RList:
    def __init__(s,e): s.e=e
    def size(s): return Sym('z',f'(size {s.e})')
    def __getitem__(s,i):
        r=Result('v'); r.e=('nth',s.e,i); return r
def EvaluateBatchOfTraders(c,ec,h,side,tes):
    n=len(tes)
    # a fair schedule: round robin
    return RList(R.bind(f'EvaluateBatchOfTraders {c.e} {ec.e} {h.e} None {clist([t.e for t in tes])} (List.concat (repeat (seq 0 {n}) 100))','rs'))
def parse_text(s):
    toks=re.findall(r'"[^"]*"|[{}]|[\w.+-]+:?',s); pos=0
    def block():
        nonlocal pos
        d=[]
        while pos<len(toks) and toks[pos]!='}':
            k=toks[pos]; pos+=1
            if k.endswith(':'):
                d.append((k[:-1],toks[pos])); pos+=1
            else:
                assert toks[pos]=='{'; pos+=1; b=block(); assert toks[pos]=='}'; pos+=1; d.append((k,b))
        return d
    return block()
def fill(o,d):
    if isinstance(o,Result): o.d=d; return
    for k,v in d:
        if isinstance(v,list): fill(getattr(o,'mutable_'+k)(),v)
        elif k=='fast_eval': o._fast=v
        else: getattr(o,'set_'+k)(F(v) if k in o.fl_ else int(v))
def TextFormat_ParseFromString(s,o): fill(o,parse_text(s)); return True
XI={'total_executed_orders'}
def cmp_exec(d,e,full):
    d=dict(d)
    names=['start_base_balance','start_quote_balance','end_base_balance','end_quote_balance','start_price','end_price','start_value','end_value','total_executed_orders','total_fee']
    for n in names:
        if n not in d:
            assert not full,n; continue
        R.check(f'(r_{n} {e} =? {d[n]})' if n in XI else f'fsame (r_{n} {e}) {fl(F(d[n]))}')
    for n in ('base_volatility','trader_volatility'):
        if n in d: R.check(f'ofsame (r_{n} {e}) (Some {fl(F(d[n]))})')
        elif full: R.check(f'ofsame (r_{n} {e}) None')
def ExpectProtoEq(r,x,full_scope=True):
    global EVDEF
    if r.kind=='x': cmp_exec(x.d,r.e,full_scope); return
    if isinstance(r.e,tuple):
        e=R.fresh('ev'); R.lines.append(f"do {e} <- match nth_error {r.e[1]} {r.e[2]} with Some r => Done r | None => Undefined end ;")
    else: e=r.e
    periods=[v for k,v in x.d if k=='period']; d=dict((k,v) for k,v in x.d if k!='period')
    R.check(f'String.eqb (er_name {e}) {d["name"]}%string')
    for n in('score','avg_gain','avg_base_gain','avg_total_executed_orders','avg_total_fee'):
        R.check(f'fsame (er_{n} {e}) {fl(F(d[n]))}')
    ac=AccountConfig(); fill(ac,d['account_config']); ec=EvaluationConfig(); fill(ec,d['eval_config'])
    for n in AccountConfig.fl_:
        f={'base_unit':'cfg_base_unit','quote_unit':'cfg_quote_unit','market_liquidity':'cfg_market_liquidity','max_volume_ratio':'cfg_max_volume_ratio'}.get(n,n)
        R.check(f'fsame ({f} (er_account_config {e})) {ac.val(n)}')
    for k,m in (('market',ac.m),('stop',ac.s),('limit',ac.l)):
        for n in FeeConfig.fl_: R.check(f'fsame ({n} ({k}_order_fee_config (er_account_config {e}))) {m.val(n)}')
    for n,f in(('start_timestamp_sec','ec_start_timestamp_sec'),('end_timestamp_sec','ec_end_timestamp_sec'),('evaluation_period_months','evaluation_period_months')):
        R.check(f'({f} (er_eval_config {e}) =? {ec.val(n)})')
    R.check(f'Bool.eqb (fast_eval (er_eval_config {e})) {ec._fast}')
    R.check(f'(size (er_period {e}) =? {len(periods)})')
    for i,p in enumerate(periods):
        p=dict(p); v=R.fresh('p')
        R.lines.append(f"do {v} <- match nth_error (er_period {e}) {i} with Some p => Done p | None => Undefined end ;")
        R.check(f'(p_start_timestamp_sec {v} =? {p["start_timestamp_sec"]})'); R.check(f'(p_end_timestamp_sec {v} =? {p["end_timestamp_sec"]})')
        R.check(f'fsame (p_final_gain {v}) {fl(F(p["final_gain"]))}'); R.check(f'fsame (p_base_final_gain {v}) {fl(F(p["base_final_gain"]))}')
        if 'result' in p: cmp_exec(p['result'],f'(p_result {v})',full_scope)
        else: assert not full_scope

# ---------- proto ----------
class ostringstream(stringstream):
    def __init__(s): s.b='[]'
    def str(s): return s.b
class istringstream:
    def __init__(s,b='[]'): s.b=b
class Ok:
    def __init__(s,e): s.e=e
    def ok(s): return Sym('b',s.e)
def optmsg(m):
    if isinstance(m,PriceRecord): names=('timestamp_sec','price','volume'); c='PriceMsg'
    else: names=('timestamp_sec','open','high','low','close','volume'); c='TickMsg'
    o=lambda n:'None' if n not in m.has else (f'(Some {m.val(n)})' if n=='timestamp_sec' else f'(Some (f32_bits {m.val(n)}))')
    return '('+c+' '+' '.join(o(n) for n in names)+')'
def WriteDelimitedMessagesToOStream(b,e,os,compress):
    v=Vec(list.__getitem__(b.v,slice(b.i,e.i)))
    T='PriceRecordType' if b.v.elem is PriceRecord else 'OhlcTickType'
    os.b=R.let(f'WriteDelimitedMessages {T} {clist([optmsg(m) for m in v])}','b'); return Ok('true')
def ReadDelimitedMessagesFromIStream(i,v):
    T,k,f=('PriceRecordType','price','price_of_msg (lm := test_libm) (as_ := true)') if v.elem is PriceRecord else ('OhlcTickType','tick','tick_of_msg (lm := test_libm) (as_ := true)')
    r=R.let(f'ReadDelimitedVector {T} {i.b}','d')
    v.sym=SList(k,f'(match {r} with Some (ms, _) => map ({f}) ms | None => [] end)')
    return Ok(f'(match {r} with Some (_, Ok) => true | _ => false end)')

# ---------- C++ -> Python ----------
def strip_comments(s):
    out=[];i=0
    while i<len(s):
        if s.startswith('//',i):
            while i<len(s) and s[i]!='\n': i+=1
        elif s.startswith('/*',i):
            j=s.index('*/',i)+2; out.append('\n'*s.count('\n',i,j)); i=j
        elif s.startswith('R"(',i):
            j=s.index(')"',i)+2
            out.append('RAW("""'+s[i+3:j-2]+'""")'); i=j
        elif s[i]=='"':
            j=i+1
            while s[j]!='"': j+=2 if s[j]=='\\' else 1
            out.append(s[i:j+1]); i=j+1
        else: out.append(s[i]); i+=1
    return ''.join(out)
def RAW(s): return s
def match(s,i,o,c):
    d=0; q=False
    while True:
        ch=s[i]
        if s.startswith('"""',i):
            i=s.index('"""',i+3)+3; continue
        if ch=='"':
            i+=1
            while s[i]!='"': i+=2 if s[i]=='\\' else 1
        elif ch==o: d+=1
        elif ch==c:
            d-=1
            if d==0: return i
        i+=1
TYPES='Account AccountConfig FeeConfig OhlcTick Order PriceHistory OhlcHistory SideHistory SideInput CsvLogger EvaluationConfig ExecutionResult EvaluationResult TestTraderEmitter TestTrader TestTraderWithSideInput SlidingWindowMeanAndVariance SlidingWindowMinimum SlidingWindowMaximum SimpleMovingAverage ExponentialMovingAverage ExponentialMovingAverageHelper MovingAverageConvergenceDivergence RelativeStrengthIndex StochasticOscillator Volatility LastNOhlcTicks'.split()
def expr(e):
    e=re.sub(r'std::numeric_limits<float>::max\(\)','FMAX',e)
    e=re.sub(r'Order::(?:Type|Side)::Order_(?:Type|Side)_(\w+)',r'"\1"',e)
    parts=re.split(r'("""(?:.|\n)*?"""|"(?:[^"\\]|\\.)*")',e)
    for i in range(0,len(parts),2):
        p=parts[i]
        p=re.sub(r'(?<![\w.])(\d+\.?\d*(?:e[+-]?\d+)?)f\b',r'F("\1")',p)
        p=p.replace('->','.').replace('::','_').replace('nullptr','None')
        p=re.sub(r'\btrue\b','True',p); p=re.sub(r'\bfalse\b','False',p)
        p=re.sub(r'(?<=[(,=\s])&(?=\w)','',p); p=re.sub(r'\bnew ','',p)
        p=p.replace('{','[').replace('}',']')
        parts[i]=p
    e=''.join(parts)
    e=re.sub(r'("(?:[^"\\]|\\.)*")\s*\n\s*(?=")',r'\1 ',e)
    return ' '.join(l.strip() for l in e.split('\n')) if '"""' not in e else e
def translate(body,line0,decl):
    """returns list of (indent, line, code)"""
    out=[]; i=0; ind=0
    def line(j): return line0+body.count('\n',0,j)
    while True:
        while i<len(body) and body[i].isspace(): i+=1
        if i>=len(body): break
        if body[i]=='}': ind-=1; i+=1; continue
        m=re.compile(r'for \((?:size_t|int) (\w+) = (-?\w+);\s*\1 (<=?) (\w+);\s*\+\+\1\) \{').match(body,i)
        if m:
            hi=m[4]+('+1' if m[3]=='<=' else '')
            out.append((ind,line(i),f'for {m[1]} in range({m[2]},{hi}):')); ind+=1; i=m.end(); continue
        # statement up to ';' at depth 0
        j=i;d=0
        while True:
            if body.startswith('"""',j): j=body.index('"""',j+3)+3; continue
            ch=body[j]
            if ch=='"':
                j+=1
                while body[j]!='"': j+=2 if body[j]=='\\' else 1
            elif ch in '([{': d+=1
            elif ch in ')]}': d-=1
            elif ch==';' and d==0: break
            j+=1
        st=body[i:j]; ln=line(i); i=j+1
        out.append((ind,ln,stmt(st,decl)))
    return out
def stmt(st,decl):
    m=re.match(r'const auto (\w+) =\s*\[base_balance, quote_balance\]\(const float price\) \{\s*return base_balance \* price \+ quote_balance;\s*\}$',st)
    if m: return f'{m[1]} = (lambda b,q: lambda price: b*price+q)(base_balance, quote_balance)'
    m=re.match(r'(\w+)\.Register(\w+)Callback\(',st)
    if m:
        mp={'LastTickUpdated':('last_tick_updated_old_ohlc_tick','updated_old','last_tick_updated_new_ohlc_tick','updated_new'),
            'NewTickAdded':('new_tick_added_new_ohlc_tick','added_new'),
            'NewTickAddedAndOldestTickRemoved':('new_tick_shifted_removed_ohlc_tick','shifted_removed','new_tick_shifted_new_ohlc_tick','shifted_new')}[m[2]]
        return '; '.join(f'{m[1]}.watch({mp[k]},"{mp[k+1]}")' for k in range(0,len(mp),2))
    m=re.match(r'std::pair<.*?>\s+(\w+) = (.*)$',st,re.S) or re.match(r'std::map<size_t, bool> (\w+) =\s*(.*)$',st,re.S) \
      or re.match(r'absl::StatusOr<absl::Time> (\w+) =\s*(.*)$',st,re.S) or re.match(r'std::vector<[^;]*?> (\w+) =\s*(.*)$',st,re.S)
    if m: return f'{m[1]} = {expr(m[2])}'
    m=re.match(r'std::vector<(.*)> (\w+)(\{.*\})?$',st,re.S)
    if m:
        t={'PriceRecord':'PriceRecord','OhlcTick':'OhlcTick'}.get(m[1],'None')
        return f'{m[2]} = vec({t})({expr(m[3]) if m[3] else ""})'
    m=re.match(r'std::(stringstream|ostringstream|istringstream) (\w+)(\(.*\))?$',st,re.S)
    if m: return f'{m[2]} = {m[1]}{expr(m[3]) if m[3] else "()"}'
    m=re.match(r'(?:static constexpr )?float (\w+) =\s*(.*)$',st,re.S)
    if m: decl.add(m[1]); return f'{m[1]} = tofloat({expr(m[2])})'
    m=re.match(r'(?:static constexpr )?int (\w+) =\s*(.*)$',st,re.S)
    if m: return f'{m[1]} = {expr(m[2])}'
    m=re.match(r'(\w+)\*? (\w+)(\[\d+\])?\s*(\(.*\)|=\s.*|)$',st,re.S)
    if m and m[1] in TYPES:
        if m[3]: return f'{m[2]} = {m[1]}({m[3][1:-1]})'
        if m[4].startswith('='): return f'{m[2]} = {expr(m[4][1:])}'
        return f'{m[2]} = {m[1]}{expr(m[4]) if m[4] else "()"}'
    m=re.match(r'(\w+) ([+-]?=)\s*(.*)$',st,re.S)
    if m and m[1] in decl:
        return f'{m[1]} = tofloat({expr(m[3])})' if m[2]=='=' else f'{m[1]} {m[2]} {expr(m[3])}'
    return expr(st)

def run_file(path,name,out,env={},cite=''):
    src=strip_comments(open(REPO+path,encoding='utf8').read())
    src=src.replace('\\\n','\n')
    res=[]; checks=[]
    for m in re.finditer(r'^TEST\((\w+), (\w+)\) \{',src,re.M):
        e=match(src,m.end()-1,'{','}')
        body=src[m.end():e]; l0=src.count('\n',0,m.end())+1
        decl=set(); code=translate(body,l0,decl)
        py=''.join('    '*0+'  '*ind+(c if c.startswith('for ') else f'R.line={ln}; {c}')+'\n' for ind,ln,c in code)
        global R
        R=Rec(); g=dict(globals()); g.update(env)
        if os.environ.get('DBG'): print(py)
        try: exec(compile(py,f'{path}:{m[1]}.{m[2]}','exec'),g)
        except Exception: print(py[:3000]); raise
        nm=f'{m[1]}_{m[2]}'
        ln=src.count('\n',0,m.start())+1; le=src.count('\n',0,e)+1
        res.append(f'(** {path}:{ln}-{le} TEST({m[1]}, {m[2]}): {len(R.checks)} checks. *)\n'+R.out(nm)+f'Check (@eq_refl (outcome (list Z)) (Done []) <: {nm} = Done []).\n')
        checks.append(len(R.checks))
    print(path,len(res),'tests',sum(checks),'checks')
    out.append('\n'.join(res))
    return sum(checks)
HEAD='''(** GENERATED from %s by tools/gen_tests.py: the repository's unit tests, run on the
    model (see TestKit.v).  Each [Check] fails to build if a test does not pass. *)

From Coq Require Import ZArith Bool List String.
From Verif.Model Require Import Outcome Machine Types Account History SideInput Indicators
  TimeUtil TimeText Eval Traders CsvLogger MachineIEEE Proto Files.
From Verif.Validation Require Import TestKit.
Import ListNotations.
Local Open Scope Z_scope.

'''
FILES=[('AccountTest',['base/account_test.cc'],{}),
 ('HistoryTest',['base/base_test.cc','base/history_test.cc'],{}),
 ('SideInputTest',['base/side_input_test.cc'],{}),
 ('IndicatorUtilTest',['indicators/util_test.cc'],{}),
 ('IndicatorTest',['indicators/last_n_ohlc_ticks_test.cc','indicators/simple_moving_average_test.cc','indicators/exponential_moving_average_test.cc','indicators/moving_average_convergence_divergence_test.cc','indicators/stochastic_oscillator_test.cc','indicators/relative_strength_index_test.cc','indicators/volatility_test.cc'],dict(PrepareExampleOhlcHistory=Prepare8h)),
 ('TimeTest',['util/time_test.cc'],{}),
 ('LoggerTest',['logging/csv_logger_test.cc'],dict(PrepareExampleOhlcHistory=PrepareLoggerHistory)),
 ('ProtoTest',['util/proto_test.cc'],{}),
 ('EvalTest',['eval/eval_test.cc'],{})]
if __name__=='__main__':
    sel=sys.argv[1:]
    for n,fs,env in FILES:
        if sel and n not in sel: continue
        out=[]
        for f in fs: run_file(f,n,out,env)
        s='\n'.join(out)
        if n in('IndicatorTest',):  # two files use the same TEST name
            seen={}
            def fix(m):
                return m[0]
        open(OUT+n+'.v','w').write(HEAD%', '.join(fs)+s)
