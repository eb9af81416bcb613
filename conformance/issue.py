"""Certificates issued by the model, for ssh-keygen -L to read.

usage: issue.py DIR   (writes DIR/Conf3.v and DIR/issued.json)
The signed part of each certificate is laid out here a second time, from PROTOCOL.certkeys; the
model is given a signature over these bytes only, so it must produce the same bytes.
"""
import os,sys
HERE=os.path.dirname(os.path.abspath(__file__))+'/'
exec(open(HERE+'vectors.py').read().split('# ---- certificates')[0])
tests.clear()
import subprocess
def keygen(*a): return subprocess.run(['ssh-keygen']+list(a),capture_output=True,text=True)
def lp(x): return len(x).to_bytes(4,'big')+x
def u64(n): return n.to_bytes(8,'big')
def derint(n):
    b=n.to_bytes(n.bit_length()//8+1,'big');return b'\x02'+bytes([len(b)])+b
def private(f):
    text=rd('keys/unencrypted/'+f).decode()
    r=R(base64.b64decode(''.join(text.strip().split('\n')[1:-1])));r.u(15);r.s();r.s();r.s();r.u(4);pub=r.s();s=R(r.s());s.u(8)
    return text,pub,s
def signer(f,tbs):
    text,pub,s=private(f);kt=s.s()
    ed='(fun _ _ _ => None)';ec='(fun _ _ _ _ => None)';rs='(fun _ _ => None)'
    if kt==b'ssh-ed25519':
        pk=s.s();sk=s.s();A,sg=ed_sign(sk[:32],tbs);assert ed_verify(pk,tbs,sg);ver.append(('ed',pk,tbs,sg))
        ed='(fun a b m => if bytes_eqb a %s && bytes_eqb b %s && bytes_eqb m %s then Some %s else None)'%(cb(sk[:32]),cb(pk),cb(tbs),cb(sg))
    elif kt.startswith(b'ecdsa'):
        s.s();pk=s.s();x=int.from_bytes(s.s(),'big');E=P384 if b'384' in kt else P256
        k=12345678901234567890123456789012345678901;rr=E.mul(E.g,k)[0]%E.n;z=int.from_bytes(E.h(tbs).digest(),'big');t=pow(k,-1,E.n)*(z+rr*x)%E.n
        fx=rr.to_bytes(E.w,'big')+t.to_bytes(E.w,'big');assert E.verify(pk,tbs,fx);ver.append(('p384' if E is P384 else 'p256',pk,tbs,fx))
        bd=derint(rr)+derint(t);sg=b'\x30'+bytes([len(bd)])+bd
        ec='(fun al a b m => if (match al with %s => true | _ => false end) && bytes_eqb a %s && bytes_eqb b %s && bytes_eqb m %s then Some %s else None)'%('EcP384' if E is P384 else 'EcP256',cb(x.to_bytes(E.w,'big')),cb(pk),cb(tbs),cb(sg))
    else:
        n=s.s();e=s.s();dd=s.s();N=int.from_bytes(n,'big');kl=(N.bit_length()+7)//8
        t=DI['sha512']+hashlib.sha512(tbs).digest();em=b'\0\1'+b'\xff'*(kl-3-len(t))+b'\0'+t
        sg=pow(int.from_bytes(em,'big'),int.from_bytes(dd,'big'),N).to_bytes(kl,'big')
        ver.append(('rsa','sha512',n.lstrip(b'\0'),e.lstrip(b'\0'),tbs,sg));assert rsa_verify('sha512',n,e,tbs,sg)
        rs='(fun a m => if bytes_eqb m %s then Some %s else None)'%(cb(tbs),cb(sg))
    return text,'(mkKeyops (fun _ _ _ => None) (fun _ _ _ => None) %s %s %s (fun _ => []) (fun _ _ _ _ _ => None) (fun _ _ _ _ => Ok None))'%(rs,ec,ed)
users=[]
for f in ('ed25519_2','ecdsa_256_1','ecdsa_384_1','rsa_2048_1'):
    p=OUT+f;open(p,'wb').write(rd('keys/unencrypted/'+f).rstrip()+b'\n');os.chmod(p,0o600)
    users.append((f,keygen('-y','-f',p).stdout.strip()))
for f in ('ecdsa','ed25519'): users.append(('sk-'+f,rd('keys/sk/%s.pub'%f).decode().strip()))
issued=[];defs=[]
for i,(uf,ut) in enumerate(users):
    for j,ca in enumerate(('ed25519_1','ecdsa_256_1','ecdsa_384_1','rsa_2048_1')):
        host=(i+j)%2
        w=ut.split(' ');kb=R(base64.b64decode(w[1]));name=kb.s();kd=kb.rest()
        cname=(name[:-12] if name.endswith(b'@openssh.com') else name)+b'-cert-v01@openssh.com'
        nonce=bytes((7*i+3*j+k)%256 for k in range(32));serial=2**63+100*i+j
        names=['host%d.example.com'%k for k in range(j)] if host else ['alice','bob']
        crit=[] if host else [('force-command','/bin/true %d'%i),('source-address','10.0.0.0/8')]
        ext=[] if host else sorted(['permit-agent-forwarding','permit-port-forwarding','permit-pty','permit-user-rc','permit-X11-forwarding'])
        kid='cert %s by %s'%(uf,ca);va=1600000000+i;vb=1900000000+j
        text,pub,_=private(ca)
        tbs=(lp(cname)+lp(nonce)+kd+u64(serial)+(2 if host else 1).to_bytes(4,'big')+lp(kid.encode())+lp(b''.join(lp(x.encode()) for x in names))
          +u64(va)+u64(vb)+lp(b''.join(lp(k.encode())+lp(lp(v.encode())) for k,v in crit))+lp(b''.join(lp(x.encode())+lp(b'') for x in ext))+lp(b'')+lp(pub))
        text,Kx=signer(ca,tbs)
        ops=['OpSerial %d'%serial,'OpKeyId %s'%cs(kid)]+['OpPrincipal %s'%cs(x) for x in names]+['OpValidAfter %d'%va,'OpValidBefore %d'%vb]+['OpCriticalOption %s %s'%(cs(k),cs(v)) for k,v in reversed(crit)]
        if ext: ops.append('OpSetExtensions standard_extensions')
        n=len(issued)
        defs.append('Definition issued_%d : res cert := do? u <- pk_from_string %s; do? k <- sk_from_string F K %s None; do? c <- builder (Some %s) (Some (repeat x00 8)) u %s (sk_pub k); cert_sign C isort (apply_ops c [%s]) (sk_sign F C %s k).'%(n,cs(' '.join(w[:2])),cs(text),cb(nonce),'Host' if host else 'User','; '.join(ops),Kx))
        issued.append(dict(key=uf,ca=ca,host=host,serial=serial,id=kid,names=names,crit=crit,ext=ext))
base=open(HERE+'vectors.py').read()
hdr=base[base.index("out=[]\nout.append('''")+len("out=[]\nout.append('''"):base.index("''')\nfor a in hashes:")]
out=[hdr]
# one iteration order of the maps among many; this one is the order ssh-keygen writes
out.append('''Fixpoint lexb (a b:bytes) := match a,b with [],_ => true | _,[] => false | x::a,y::b => if (b2n x <? b2n y)%N then true else if (b2n y <? b2n x)%N then false else lexb a b end.
Fixpoint ins (e:bytes*bytes) (m:list (bytes*bytes)) := match m with [] => [e] | f::m' => if lexb (fst e) (fst f) then e::m else f::ins e m' end.
Definition isort (m:list (bytes*bytes)) := fold_right ins [] m.''')
for a in hashes:
    out.append('Definition t_%s : list (bytes*bytes) := [%s].'%(a,';\n'.join('(%s,%s)'%(cb(x),cb(hashlib.new(a,x).digest())) for x in sorted(hashes[a]))))
for k in ['ed','p256','p384']:
    out.append('Definition t_%s : list (bytes*bytes*bytes) := [%s].'%(k,';\n'.join('(%s,%s,%s)'%(cb(v[1]),cb(v[2]),cb(v[3])) for v in ver if v[0]==k)))
for h in ['sha1','sha256','sha512']:
    out.append('Definition t_rsa_%s : list (bytes*bytes*bytes*bytes) := [%s].'%(h,';\n'.join('(%s,%s,%s,%s)'%tuple(cb(x) for x in v[2:]) for v in ver if v[0]=='rsa' and v[1]==h)))
out.append('''Definition C : crypto := mkCrypto (hlook t_sha256) (hlook t_sha384) (hlook t_sha512) (has3 t_p256) (has3 t_p384) (has3 t_ed)
 (fun h n e m s => existsb (fun t => match t with (a,b,c,d) => bytes_eqb a n && bytes_eqb b e && bytes_eqb c m && bytes_eqb d s end) (match h with RsaSha1 => t_rsa_sha1 | RsaSha256 => t_rsa_sha256 | RsaSha512 => t_rsa_sha512 end)).
''')
out+=defs
for i in range(len(issued)):
    out.append('Eval vm_compute in (fun m : res cert => match m with Ok c => match cert_from_string C (cert_display c) with Ok _ => string_of_list_byte (cert_display c) | _ => "unreadable"%%string end | _ => "refused"%%string end) issued_%d.'%i)
open(OUT+'Conf3.v','w').write('\n'.join(out)+'\n')
json.dump(issued,open(OUT+'issued.json','w'))
print(len(issued),'certificates')
