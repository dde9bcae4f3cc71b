import re, decimal
from decimal import Decimal, getcontext
getcontext().prec=60
src=open('/repo/src/test/test_eph.cpp').read()
o=[]
o.append(r'''(* Model validation, not properties: the unit tests of the repository (src/test/test_time.cpp, test_bit_tools.cpp, test_eph.cpp),
   replayed on the model.  Every EXPECT of those files is one conjunct here, with the same literals; EXPECT_NEAR compares exact rational values.
   (This file is generated from the test sources.) *)
From Coq Require Import QArith Qabs.
From Verif Require Import Base BitModel UtcModel Dbl UtcDouble NavModel.
Local Open Scope Z_scope.

Definition ok {A} (o : outcome A) (p : A -> bool) : bool := match o with Ok a => p a | UB _ => false end.
(* |x - n/10^k| <= tn/10^tk *)
Definition near (x : dbl) (n k tn tk : Z) : bool :=
  Qle_bool (Qabs (Qminus (dQ x) (Qdiv (inject_Z n) (inject_Z (10 ^ k))))) (Qdiv (inject_Z tn) (inject_Z (10 ^ tk))).
(* the uint32_t words of a test, as the bytes in memory *)
Definition words (l : list Z) : list Z := flat_map le32 l.
''')
# time tests, by hand
def dbl(x):
    # exact double of python float
    n,d=float(x).as_integer_ratio()
    import math
    # normalise to 53 bit mantissa
    m,e=math.frexp(abs(x)); m=int(m*2**53); e-=53
    assert m*(2.0**e)==abs(x)
    return f'(mkD {m} ({e}))' if x>=0 else f'(mkD (-{m}) ({e}))'
o.append(f'''
(* ---------------------------------------------------------------- test_time.cpp *)
Definition cmp6 (t1 t2 : utc) : list bool := [utc_gt t2 t1; utc_lt t1 t2; utc_lt t2 t1; utc_gt t1 t2; utc_eq t2 t1; utc_eq t1 t2].
(* CompareSec, CompareNsec, Equal: test_time.cpp:29-67 *)
Example t_CompareSec : cmp6 (mkUtc 1564005746 0) (mkUtc 1564005748 0) = [true; true; false; false; false; false].
Proof. reflexivity. Qed.
Example t_CompareNsec : cmp6 (mkUtc 1564005746 1234) (mkUtc 1564005746 1235) = [true; true; false; false; false; false].
Proof. reflexivity. Qed.
Example t_Equal : cmp6 (mkUtc 1564005746 1234) (mkUtc 1564005746 1234) = [false; false; false; false; true; true].
Proof. reflexivity. Qed.
(* the doubles nearest to 0.1, 3.6, 18.0, 17.0 *)
Definition d_01 : dbl := {dbl(0.1)}.  Definition d_36 : dbl := {dbl(3.6)}.
Definition d_18 : dbl := {dbl(18.0)}.  Definition d_17 : dbl := {dbl(17.0)}.
Definition both (f g : utc -> dbl -> outcome utc) (t : utc) (x : dbl) (s n : Z) : bool :=
  ok (f t x) (fun t2 => ok (g t x) (fun t => (sec t2 =? s) && (nsec t2 =? n) && utc_eq t2 t)).
(* Plus, PlusWrap, Minus, MinusWrap: test_time.cpp:69-115 *)
Example t_Plus : both utc_plus_d utc_pluseq_d (mkUtc 1564005746 1234) d_01 1564005746 100001234 = true.
Proof. vm_compute. reflexivity. Qed.
Example t_PlusWrap : both utc_plus_d utc_pluseq_d (mkUtc 1564005746 500000000) d_36 1564005750 {int(0.1*1e9)} = true.
Proof. vm_compute. reflexivity. Qed.
Example t_Minus : both utc_minus_d utc_minuseq_d (mkUtc 1564005746 500000000) d_01 1564005746 {int(0.4*1e9)} = true.
Proof. vm_compute. reflexivity. Qed.
Example t_MinusWrap : both utc_minus_d utc_minuseq_d (mkUtc 1564005746 500000000) d_36 1564005742 {int(0.9*1e9)} = true.
Proof. vm_compute. reflexivity. Qed.
(* AddWrap, SubtractWrap: test_time.cpp:117-139 *)
Example t_AddWrap : utc_add (mkUtc 1564005746 500000000) (mkUtc 3 {int(0.6*1e9)}) = Ok (mkUtc 1564005750 {int(0.1*1e9)}).
Proof. reflexivity. Qed.
Example t_SubtractWrap : utc_sub (mkUtc 1564005746 500000000) (mkUtc 3 {int(0.6*1e9)}) = Ok (mkUtc 1564005742 {int(0.9*1e9)}).
Proof. reflexivity. Qed.
(* getGPSWeek, getGlonassWeek, getGlonassDayOfWeek: test_time.cpp:141-165 *)
Example t_getGPSWeek :
  (let* t := utc_plus_d (mkUtc 1563667200 0) d_18 in GpsWeek t) = Ok 2063 /\\
  (let* t := utc_plus_d (mkUtc 1563667200 0) d_17 in GpsWeek t) = Ok 2062.
Proof. vm_compute. split; reflexivity. Qed.
Example t_getGlonassWeek : (let* t := utc_minus_int (mkUtc 1564012800 0) (3 * 3600) in GlonassWeek t) = Ok 2586.
Proof. vm_compute. reflexivity. Qed.
Example t_getGlonassDayOfWeek : (let* t := utc_minus_int (mkUtc 1563667200 0) (3 * 3600) in GlonassDayOfWeek t) = Ok 3.
Proof. vm_compute. reflexivity. Qed.
(* GPSvsUTC: test_time.cpp:167-188 *)
Example t_GPSvsUTC :
  (let* t := utc_pluseq_d (mkUtc 1563667200 0) d_18 in GpsWeek t) = Ok 2063 /\\
  fromGPS 2063 0 = utc_pluseq_d (mkUtc 1563667200 0) d_18 /\\
  fromGPS 2063 ((SEC_IN_WEEK - 1) * 1000) = utc_pluseq_d (mkUtc 1564271999 0) d_18.
Proof. vm_compute. repeat split; reflexivity. Qed.
(* GlonassvsUTC: test_time.cpp:190-214 *)
Example t_GlonassvsUTC :
  (let* t := utc_minus_int (mkUtc 1564012800 0) (3 * 3600) in GlonassWeek t) = Ok 2586 /\\
  fromGlonass 2586 0 = utc_minus_int (mkUtc 1564012800 0) (3 * 3600) /\\
  (let* t := utc_minus_int (mkUtc 1564012799 0) (3 * 3600) in GlonassWeek t) = Ok 2585 /\\
  fromGlonass 2585 ((SEC_IN_WEEK - 1) * 1000) = utc_minus_int (mkUtc 1564012799 0) (3 * 3600).
Proof. vm_compute. repeat split; reflexivity. Qed.
(* GlonassFromTOD: test_time.cpp:216-241 *)
Example t_GlonassFromTOD :
  fromGlonassTimeOfDay (mkUtc 1563885000 0) ((15 * 3600 + 1800) * 1000) = Ok (mkUtc 1563885000 0) /\\
  (let* t2 := utc_minus_int (mkUtc 1564012800 0) (3 * 3600) in
   let* r := utc_minus_int t2 10 in
   let* g := fromGlonassTimeOfDay r (24 * 3600 * 1000) in Ok (utc_eq g t2)) = Ok true /\\
  (let* t2 := utc_minus_int (mkUtc 1564012799 0) (3 * 3600) in
   let* g := fromGlonassTimeOfDay t2 ((24 * 3600 - 1) * 1000) in Ok (utc_eq g t2)) = Ok true.
Proof. vm_compute. repeat split; reflexivity. Qed.
''')
# bit tools
o.append('\n(* ---------------------------------------------------------------- test_bit_tools.cpp *)')
bt=open('/repo/src/test/test_bit_tools.cpp').read()
for m in re.finditer(r'TEST\((\w+), (\w+)\)\n\{(.*?)\n\}',bt,re.S):
    g,n,b=m.groups()
    line=bt[:m.start()].count('\n')+1
    o.append(f'(* {g}.{n}: test_bit_tools.cpp:{line} *)')
    if g.startswith('Get'):
        data=re.search(r'data\[\] = \{(.*?)\}',b,re.S).group(1)
        data=[int(x.strip(),16) for x in data.split(',') if x.strip()]
        q=re.search(r'(\w+) (?:bits|out) = getBit<(\d+)(, Signed)?>\(data, (\w+)\)',b)
        ty,w,s,pos=q.groups()
        if pos=='i': pos='160'
        exp=int(re.search(r'EXPECT_EQ\(\w+, (.*?)\)',b).group(1),0)
        f='getBitS' if s else 'getBit'
        conv={'uint16_t':'u16','int16_t':'i16','int':'i32'}[ty]
        o.append(f'Example b_{g}_{n} : (let* b := {f} {w} [{"; ".join(map(str,data))}] {pos} in Ok ({conv} b)) = Ok ({exp}).\nProof. vm_compute. reflexivity. Qed.')
    else:
        data=int(re.search(r'uint32_t data = (.*?);',b).group(1),0)
        w,pos=re.search(r'setBit<(\d+)>\(buf, (\d+), data\)',b).groups()
        exp=int(re.search(r'EXPECT_EQ\(.*, (0x\w+)\)',b).group(1),0)
        o.append(f'Example b_{g}_{n} : (let* b := setBit {w} [0; 0; 0; 0; 0; 0; 0; 0] {pos} {data} in Ok (of_le (firstn 4 b))) = Ok {exp}.\nProof. vm_compute. reflexivity. Qed.')
# eph
o.append('\n(* ---------------------------------------------------------------- test_eph.cpp *)')
def rows(txt): 
    return [[int(x,16) for x in re.findall(r'0x[0-9a-f]+',r)] for r in re.findall(r'\{(0x[^{}]*)\}',txt)]
def rat(s):
    d=Decimal(s); 
    sign,digits,exp=d.as_tuple()
    n=int(''.join(map(str,digits)))*(-1 if sign else 1)
    if exp>=0: return n*10**exp,0
    return n,-exp
gps=src[src.index('ParseGPS'):src.index('TEST(NavParser, ParseGLONASS')]
glo=src[src.index('TEST(NavParser, ParseGLONASS'):src.index('TEST(NavParser, Galileo')]
gal=src[src.index('TEST(NavParser, Galileo'):]
IF=dict(sat='Fsat',gnssID='FgnssID',iode='Fiode',iodc='Fiodc',ura='Fura',health='Fhealth',week='Fweek',code_on_L2='FcodeL2',alert_flag='Falert',
 fit_interval_flag='Ffit',toes='Ftoes',tocs='Ftocs',anti_spoof='Fspoof',L2_P_data_flag='FL2P',age_of_data_offset='Faodo')
DF=dict(sqrta='Fsqrta',ecc='Fecc',i0='Fi0',omega0='Fomega0',w='Fw',m0='Fm0',delta_n='Fdeltan',omegadot='Fomegadot',idot='Fidot',crc='Fcrc',crs='Fcrs',cuc='Fcuc',cus='Fcus',cic='Fcic',cis='Fcis',af0='Faf0',af1='Faf1',af2='Faf2')
for i in range(4): DF[f'tgd[{i}]']=f'Ftgd{i}'
GI=dict(sat='Gsat',gnssID='GgnssID',iode='Giode',frq='Gfrq',svh='Gsvh',sva='Gsva',age='Gage')
GD=dict(taun='Gtaun',gamn='Ggamn',dtaun='Gdtaun')
for i in range(3):
    for v in ('pos','vel','acc'): GD[f'{v}[{i}]']=f'G{v}{i}'
VAL={'ublox::GnssID_GPS':'0','ublox::GnssID_Galileo':'2','ublox::GnssID_Glonass':'6'}
def checks(txt,var,I,D,i,d):
    r=[]
    for m in re.finditer(r'EXPECT_(EQ|NEAR)\(%s\.([\w\[\]]+)(?:\.(\w+))?, (.*)\);'%var,txt):
        k,f,sub,rest=m.groups()
        if sub:
            t={'toe':i[0]+'_toe','toc':i[0]+'_toc','tof':i[0]+'_tof'}[f]
            r.append(f'({sub} ({t} e) =? {rest})')
        elif k=='EQ':
            r.append(f'({i} e {I[f]} =? {VAL.get(rest,rest)})')
        else:
            v,t=rest.rsplit(', ',1)
            if v.startswith('std::sqrt'):
                v=str(Decimal(v[10:-1]).sqrt().quantize(Decimal('1e-20')))
            n,kk=rat(v); tn,tk=rat(t)
            if f in I: r.append(f'near (d_of_int ({i} e {I[f]})) ({n}) {kk} {tn} {tk}')
            else: r.append(f'near ({d} e {D[f]}) ({n}) {kk} {tn} {tk}')
    return r
def conj(l): return ' &&\n  '.join(l)
L=lambda l: '['+'; '.join(map(str,l))+']'
ck=checks(gps,'eph',IF,DF,'ei','ed')
o.append('(* ParseGPS: test_eph.cpp:46-109.  junk: decodeGPS\'s uninitialised buffer *)')
o.append('Definition gps_msgs : list (list Z) :=\n  ['+';\n   '.join(L(r) for r in rows(gps))+'].')
o.append('Definition gps_expect (e : eph) : bool :=\n  '+conj(ck)+'.')
o.append('''Fixpoint gps_feed (ms : list (list Z)) (e : eph) (out : list eph) : outcome (list eph) :=
  match ms with
  | [] => Ok out
  | m :: r => let* x := decodeGPS (repeat 170 30) (words m) e in
              let '(e, c, _) := x in gps_feed r e (out ++ match c with Some k => [k] | None => [] end)
  end.
(* finished, and every call of the callback met the expectations *)
Example e_ParseGPS : ok (gps_feed gps_msgs (seti Fsat 21 eph_new) []) (fun out => negb (Nat.eqb (length out) 0) && forallb gps_expect out) = true.
Proof. vm_compute. reflexivity. Qed.
''')
ck=checks(glo,'geph',GI,GD,'gi','gd')
gr=rows(glo); 
o.append(f'(* ParseGLONASS: test_eph.cpp:111-258; {len(gr)} rows of five words, laid out contiguously (the fourth data word of a message is the next row\'s first). *)')
o.append('Definition glo_msgs : list (list Z) :=\n  ['+';\n   '.join(L(r) for r in gr)+'].')
o.append('Definition glo_expect (e : geph) : bool :=\n  '+conj(ck)+'.')
o.append('''Fixpoint glo_feed (n : nat) (mem : list Z) (g : geph) (out : list nev) : outcome (list nev) :=
  match n with
  | O => Ok out
  | S n => let m := sfrbx_of (firstn 48 mem) in
           let* x := decodeGlonass [1] (mkUtc 1563660018 0) (sf_gnss m) (sf_sv m) (sf_freq m) (sf_dw m) g in
           let '(g, ev, _) := x in glo_feed n (skipn 20 mem) g (out ++ ev)
  end.
Definition glo_calls (evs : list nev) : list geph := flat_map (fun e => match e with EvGeph _ g => [g] | _ => [] end) evs.
Example e_ParseGLONASS : ok (glo_feed 61 (words (concat glo_msgs)) geph_new [])
  (fun evs => negb (Nat.eqb (length (glo_calls evs)) 0) && forallb glo_expect (glo_calls evs)) = true.
Proof. vm_compute. reflexivity. Qed.
''')
ck=checks(gal,'eph',IF,DF,'ei','ed')
o.append('(* Galileo: test_eph.cpp:260-321; the page store is static and starts zeroed *)')
o.append('Definition gal_msgs : list (list Z) :=\n  ['+';\n   '.join(L(r) for r in rows(gal))+'].')
o.append('Definition gal_expect (e : eph) : list bool :=\n  ['+';\n  '.join(ck)+'].')
wide={'Ftgd0','Ftgd1','Faf0','Fdeltan','Fw','Fomegadot','Fidot','Fcuc','Fcus','Fcic','Fcis'}
w=[]
for c in ck:
    m=re.match(r'near \(ed e (\w+)\) \((-?\d+)\) (\d+) (\d+) (\d+)',c)
    if m and m.group(1) in wide: w.append('near (ed e %s) (%s) %s 5 %d'%(m.group(1),m.group(2),m.group(3),int(m.group(3))+1))
o.append('(* the literals with half a unit of their last digit as tolerance *)\nDefinition gal_six_digits (e : eph) : list bool :=\n  ['+';\n  '.join(w)+'].')
bad=['false' if any('(ed e %s)'%x in c for x in wide) else 'true' for c in ck]
o.append('''Fixpoint gal_feed (ms : list (list Z)) (st : rows) (e : eph) : outcome eph :=
  match ms with
  | [] => Ok e
  | m :: r => let* x := decodeGalileo [] st (words m) e in let '(st, e, _, _) := x in gal_feed r st e
  end.
(* Eleven of the test's expectations fail: they give six-digit literals tolerances smaller than the rounding of the literal
   (tgd[0] is -25/2^32 = -5.820766e-09, expected -5.82077e-09 within 1e-15).  The values agree in all the digits written. *)
Example e_Galileo : ok (gal_feed gal_msgs (fun _ => repeat 0 113) (seti Fsat 19 (seti FgnssID 2 eph_new)))
  (fun e => forallb (fun x => x) (gal_six_digits e) && forallb (fun p => Bool.eqb (fst p) (snd p)) (combine (gal_expect e)
    [@@])) = true.
Proof. vm_compute. reflexivity. Qed.
Example e_Galileo_counts : length (filter negb [@@]) = 11%nat /\\ length [@@] = 41%nat.
Proof. split; reflexivity. Qed.
'''.replace('@@','; '.join(bad)))
open('/verif/rocq/theories/UpstreamTests.v','w').write('\n'.join(o))
