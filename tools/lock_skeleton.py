#!/usr/bin/env python3
# Prints rocq/theories/LockTable.v from the C sources in the directory given (libfsapfs/).
import re,glob,os,sys
def strip(s):
    s=re.sub(r'/\*.*?\*/',lambda m:re.sub(r'[^\n]',' ',m.group(0)),s,flags=re.S)
    s=re.sub(r'"(\\.|[^"\\])*"','""',s)
    return s
funcs={}
for f in sorted(glob.glob(sys.argv[1]+'/libfsapfs_*.c')):
    s=strip(open(f,encoding='latin1').read())
    lines=s.split('\n')
    i=0
    # function: line starting with '{' at col 0; header above until blank/}/#
    for i,l in enumerate(lines):
        if l.startswith('{'):
            j=i-1
            while j>=0 and not (lines[j].strip()=='' or lines[j].startswith('}') or lines[j].startswith('#')): j-=1
            head=' '.join(lines[j+1:i])
            m=re.search(r'(\w+)\s*\(',head)
            if not m or '=' in head.split('(')[0]: continue
            k=i
            while not lines[k].startswith('}'): k+=1
            funcs[m.group(1)]=(os.path.basename(f),j+2,k+1,'\n'.join(lines[i:k+1]))
TOK=re.compile(r'\s+|[A-Za-z_]\w*|\d\w*|->|[-+*/%&|^=!<>]=|&&|\|\||<<|>>|\+\+|--|.',re.S)
def pre(body):
    out=[];skip=[]  # drop debug/verbose blocks; keep MULTI_THREAD
    for l in body.split('\n'):
        t=l.strip()
        if t.startswith('#if'):
            skip.append('HAVE_DEBUG_OUTPUT' in t or 'HAVE_PROFILER' in t or '0' == t.split()[-1]); 
            if not skip[-1] and 'MULTI_THREAD' not in t: print('PP',t,file=sys.stderr)
            out.append(''); continue
        if t.startswith('#el'):
            print('PPELSE',t,file=sys.stderr); skip[-1]=not skip[-1]; out.append(''); continue
        if t.startswith('#endif'): skip.pop(); out.append(''); continue
        out.append('' if any(skip) else l)
    return '\n'.join(out)
class P:
    def __init__(s,text): s.t=[x for x in TOK.findall(text) if not x.isspace()]; s.i=0
    def peek(s,k=0): return s.t[s.i+k] if s.i+k<len(s.t) else None
    def next(s): s.i+=1; return s.t[s.i-1]
    def paren(s):
        assert s.next()=='('; d=1; r=[]
        while True:
            x=s.next()
            if x=='(': d+=1
            if x==')':
                d-=1
                if d==0: return r
            r.append(x)
    def block(s):
        if s.peek()=='{':
            s.next(); r=[]
            while s.peek()!='}': r.append(s.stmt())
            s.next(); return r
        return [s.stmt()]
    def stmt(s):
        x=s.peek()
        if x=='if':
            s.next(); c=s.paren(); a=s.block(); b=[]
            if s.peek()=='else':
                s.next(); b=s.block()
            return ('if',c,a,b)
        if x in('while','for'):
            s.next(); c=s.paren(); return ('loop',c,s.block())
        if x in('do','switch','case','break','continue'): raise Exception(x)
        if x=='return':
            s.next(); 
            while s.next()!=';': pass
            return ('ret',)
        if x=='goto':
            s.next(); l=s.next(); s.next(); return ('goto',l)
        if s.peek(1)==':' and re.match(r'[a-z_]\w*$',x):
            s.i+=2; return ('label',x)
        r=[]; d=0
        while True:
            y=s.next()
            if y=='(':d+=1
            if y==')':d-=1
            if y==';' and d==0: return ('expr',r)
            r.append(y)
def lockop(c):
    for k in ('grab','release'):
        for w in ('read','write'):
            n='libcthreads_read_write_lock_%s_for_%s'%(k,w)
            if n in c: return (k,w,''.join(c[c.index(n)+2:c.index(',',c.index(n))]))
    return None
def extract(n):
    f,a,b,body=funcs[n]
    p=P(pre(body)); return p.block()
def whole(n):
    b=extract(n)
    labs=[i for i,s in enumerate(b) if s[0]=='label']
    assert len(labs)<=1,(n,labs)
    if labs: return b[:labs[0]],b[labs[0]+1:]
    return b,[]
names=[n for n,v in funcs.items() if 'read_write_lock_grab' in v[3]]+['libfsapfs_container_free']
order=sorted(names,key=lambda n:(funcs[n][0],funcs[n][1]))
callees={'libfsapfs_container_close','libfsapfs_container_open_file_io_handle'}
order=[n for n in order if n in callees]+[n for n in order if n not in callees]
def simp(sts,n):
    out=[]
    for st in sts:
        k=st[0]
        if k=='ret': out.append('Return')
        elif k=='goto': out.append('Goto')
        elif k=='label': raise Exception('label')
        elif k=='loop':
            assert not simp(st[2],n) and not [c for c in st[1] if c in callees]
        else:
            op=lockop(st[1])
            cc=[c for c in st[1] if c in names and c!=n]
            if cc:
                assert len(cc)==1 and cc[0] in callees; out.append('Call f_%s'%cc[0].replace('libfsapfs_',''))
            if op:
                typ=n.replace('libfsapfs_','')
                assert op[2].startswith('internal_') and op[2].endswith('->read_write_lock'),op
                obj=op[2][9:-17]; assert typ.startswith(obj),(n,op)
                c='Grab' if op[0]=='grab' else 'Release'
                w='true' if op[1]=='write' else 'false'
                a=simp(st[2],n) if k=='if' else []
                if k=='if':
                    t=''.join(st[1]); assert t.endswith('!=1') and not st[3],t
                out.append('%s %s %s'%(c,w,lst(a)))
            elif k=='if':
                a,b=simp(st[2],n),simp(st[3],n)
                if a or b: out.append('Choice %s %s'%(lst(a),lst(b)))
    return out
def lst(l): return '['+'; '.join(l)+']'
print('''(* Generated from the C sources by tools/lock_skeleton.py: where the functions of the API take
   and give back the lock of their handle. Kept of a function: the calls that grab or release the
   lock, and what follows if they fail; returns and jumps to the label on_error; conditions, as
   a choice between two branches, if a branch has one of these (no loop has one). Left
   out: everything else, in particular what conditions depend on, and debug output. *)
Require Import String.
From Verif Require Import Base Locks.
Open Scope string_scope.
''')
for n in order:
    f,a,b,_=funcs[n]
    m,h=whole(n)
    m,h=simp(m,n),simp(h,n)
    print('(* %s %d-%d *)'%(f,a,b))
    print('Definition f_%s : func := Fn\n  %s\n  %s.'%(n.replace('libfsapfs_',''),lst(m),lst(h)))
print('\n(* every function of the API that takes a lock *)\nDefinition api : list (string * func) := [')
print(';\n'.join('  ("%s", f_%s)'%(n,n.replace('libfsapfs_','')) for n in order)+'].')
