"""Reads the results that Coq printed and lets ssh-keygen check the signatures and certificates the model made.

usage: check.py DIR   (reads what the other scripts and coqc wrote to DIR)
"""
import json,re,subprocess,sys
D=sys.argv[1]+'/'
bad=0
for out,names in (('out1','names.json'),('out2','names2.json')):
    t=open(D+out).read(); names=json.load(open(D+names))
    got=dict((int(a),b) for a,b in re.findall(r'\(\s*(\d+)(?:%nat)?,\s*(true|false)\s*\)',t))
    wrong=[n for i,n in enumerate(names) if got.get(i)!='true']
    print(out,len(names),'tests,',len(wrong),'wrong',wrong); bad+=len(wrong)
t=open(D+'out2').read(); prints=json.load(open(D+'prints.json'))
armors=re.findall(r'-----BEGIN SSH SIGNATURE-----.*?-----END SSH SIGNATURE-----',t,re.S)
if len(armors)!=len(prints): print('signatures printed:',len(armors),'of',len(prints)); bad+=1
for f,a in zip(prints,armors):
    open(D+'sig','w').write('\n'.join(l.strip() for l in a.split('\n'))+'\n')
    r=subprocess.run(['ssh-keygen','-Y','check-novalidate','-n','file','-s',D+'sig'],stdin=open('/repo/tests/messages/Test'),capture_output=True,text=True)
    print(f,'accepted by ssh-keygen' if r.returncode==0 else r.stdout+r.stderr); bad+=r.returncode!=0
issued=json.load(open(D+'issued.json'))
texts=re.findall(r'= "(.*?)"%string',open(D+'out3').read(),re.S)
if len(texts)!=len(issued): print('certificates printed:',len(texts),'of',len(issued)); bad+=1
seen=0
for c,t in zip(issued,texts):
    open(D+'c.pub','w').write(t+'\n')
    r=subprocess.run(['ssh-keygen','-L','-f',D+'c.pub'],capture_output=True,text=True)
    o=r.stdout
    want=['Serial: %d'%c['serial'],'Key ID: "%s"'%c['id'],'host certificate' if c['host'] else 'user certificate']+c['names']+c['ext']+['%s %s'%(k,v) for k,v in c['crit']]
    miss=[w for w in want if w not in o]
    if r.returncode or miss: print(c['id'],t[:20],miss,r.stderr); bad+=1
    else: seen+=1
print(seen,'of',len(issued),'certificates read by ssh-keygen -L, with the fields they were given')
sys.exit(bad!=0)
