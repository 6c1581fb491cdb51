import random, io, contextlib, sys, re
from argparse import ArgumentParser
def mk():
    def plan(p,sub=False):
        if not sub: p.add_argument("-o","--output",default=None,required=False,dest="plan_output")
    def sample(p,sub=False):
        if not sub: p.add_argument("-p","--plan",default="plan.yaml",required=False)
        p.add_argument("--truncate",action="store_const",const=True,default=False)
        p.add_argument("--create",action="store_const",const=True,default=False)
    p=ArgumentParser()
    p.add_argument("--verbose","-v",action="count",default=0)
    p.add_argument("-c","--config",action="append")
    sp=p.add_subparsers(required=True,dest="action")
    plan(sp.add_parser("plan")); sample(sp.add_parser("sample"))
    s=sp.add_parser("subset"); plan(s,True); sample(s,True)
    return p
random.seed(int(sys.argv[1])); N=int(sys.argv[2])
W=["-v","-c","--config","--verbose","--v","--c","--con","--config=x","--c=","--=x","--","-","","plan","sample","subset","a b","-1","-1.5","-x y","-vc","-vcx","-vc=x","-v=c","-cv","-c=","-c=x","-o","-p","-pfoo","-p=","--pl","--plan=z","--p","--t","--tr","--truncate","--create","--cr","--o","--out=f","-ofile","-o=f","-h","--help","-vh","-vhx","-vxh","-hv","-v-","-v-h","--foo","--foo=1","--h=1","-hx","-vv","--ver=1","-vvc-","-c-","-c--","foo","--out put","-oa b","-ho","-h=","-h=x","--c reate","-vc=","-vvx y"]
CORE=["-v","-c","--config=x","--t","--cr","-p","-o","-pfoo","--out=f","x","-vcx","y"]
def q(s): return '"'+s.replace('"','""')+'"'
P=mk()
out=[]; cnt={}
for i in range(N):
    r=random.random()
    if r<.35: ws=[random.choice(W) for _ in range(random.randint(0,6))]
    else:
        pool=CORE if r<.7 else W
        ws=[random.choice(pool) for _ in range(random.randint(0,3))]+[random.choice(["plan","sample","subset"])]+[random.choice(pool) for _ in range(random.randint(0,4))]
    try:
        with contextlib.redirect_stdout(io.StringIO()), contextlib.redirect_stderr(io.StringIO()):
            a=P.parse_args(ws)
        b=lambda x:'true' if x else 'false'
        act={'plan':lambda:'APlan '+('None' if a.plan_output is None else '(Some %s)'%q(a.plan_output)),
         'sample':lambda:'ASample %s %s %s'%(q(a.plan),b(a.truncate),b(a.create)),
         'subset':lambda:'ASubset %s %s'%(b(a.truncate),b(a.create))}[a.action]()
        res='Ok (mkArgs [%s] (%s))'%('; '.join(map(q,a.config or [])),act); k='ok'
    except SystemExit as e:
        res={0:'Err AxHelp',2:'Err AxUsage'}[e.code]; k=res
    cnt[k]=cnt.get(k,0)+1
    out.append('([%s], %s)'%('; '.join(map(q,ws)),res))
print(cnt,file=sys.stderr)
print('''From Verif Require Import Model.Base Model.Main Model.Args.
Open Scope string_scope. Open Scope list_scope.
Definition neg (s : string) : bool := existsb (String.eqb s) ["-1"; "-1.5"].
Definition tests : list (list string * res args_exn args) := [''')
print(';\n'.join(out)); print('''].
Definition same (a b : res args_exn args) : {a = b} + {a <> b}. Proof. repeat decide equality. Defined.
Definition bad := filter (fun t => if same (parse_args neg (fst t)) (snd t) then false else true) tests.
Eval vm_compute in (length tests, map (fun t => (t, parse_args neg (fst t))) (firstn 5 bad), length bad).''')
