import struct,bz2,zlib,sys
def mk():
    t=[0]*0x500; seed=0x100001
    for i in range(256):
        idx=i
        for j in range(5):
            seed=(seed*125+3)%0x2AAAAB; a=(seed&0xFFFF)<<16
            seed=(seed*125+3)%0x2AAAAB; b=seed&0xFFFF
            t[idx]=a|b; idx+=0x100
    return t
T=mk()
def h(s,ty):
    s1=0x7FED7FED;s2=0xEEEEEEEE
    for ch in s.upper():
        v=T[(ty<<8)+ord(ch)]
        s1=(v^(s1+s2))&0xFFFFFFFF
        s2=(ord(ch)+s1+s2+(s2<<5)+3)&0xFFFFFFFF
    return s1
def dec(d,key):
    s1=key;s2=0xEEEEEEEE;o=[]
    for i in range(len(d)//4):
        s2=(s2+T[0x400+(s1&0xFF)])&0xFFFFFFFF
        v=struct.unpack('<I',d[i*4:i*4+4])[0]
        v=(v^(s1+s2))&0xFFFFFFFF
        s1=(((~s1<<0x15)+0x11111111)|(s1>>0x0B))&0xFFFFFFFF
        s2=(v+s2+(s2<<5)+3)&0xFFFFFFFF
        o.append(struct.pack('<I',v))
    return b''.join(o)
def dc(d):
    if d[0]==0: return d[1:]
    if d[0]==2: return zlib.decompress(d[1:])
    if d[0]==16: return bz2.decompress(d[1:])
    raise Exception(d[0])
class A:
    def __init__(s,fn):
        s.raw=open(fn,'rb').read(); off=0; d=s.raw
        s.user=None
        if d[:4]==b'MPQ\x1b':
            uds,ho,ulen=struct.unpack('<III',d[4:16]); s.user=d[16:16+ulen]; off=ho
        s.off=off
        m=struct.unpack('<4sIIHHIIII',d[off:off+32]); s.bs=512<<m[4]
        ht=dec(d[off+m[5]:off+m[5]+m[7]*16],h('(hash table)',3)); bt=dec(d[off+m[6]:off+m[6]+m[8]*16],h('(block table)',3))
        s.H=[struct.unpack('<IIHHI',ht[i*16:i*16+16]) for i in range(m[7])]
        s.B=[struct.unpack('<IIII',bt[i*16:i*16+16]) for i in range(m[8])]
    def read(s,n):
        a,b=h(n,1),h(n,2)
        for e in s.H:
            if e[0]==a and e[1]==b:
                o,cs,fs,fl=s.B[e[4]]; d=s.raw[s.off+o:s.off+o+cs]
                assert not fl&0x10000
                if fl&0x01000000:
                    return dc(d) if fl&0x200 and fs>cs else d
                ns=fs//s.bs+1+(1 if fl&0x04000000 else 0)
                p=struct.unpack('<%dI'%(ns+1),d[:4*(ns+1)]); r=b''; left=fs
                for i in range(len(p)-(2 if fl&0x04000000 else 1)):
                    x=d[p[i]:p[i+1]]
                    if fl&0x200 and (left>s.bs or left>len(x)): x=dc(x)
                    left-=len(x); r+=x
                return r
