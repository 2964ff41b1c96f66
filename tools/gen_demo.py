#!/usr/bin/env python3
"""Generates the data of rocq/theories/Examples/Demo.v: what satellites would transmit.

This is a transmitter written from the OSNMA ICD with hashlib and hmac, independent of the Coq
model.  The signature is the stand-in of Examples/Sha256.v (demo_sign).
"""
import hashlib, hmac

WN, TOW = 1200, 7200          # T0: start of the first subframe with OSNMA
CID, MACLT, PKID = 1, 33, 3
ALPHA = bytes.fromhex("25d3964da3a2")
PK = bytes([2]) + hashlib.sha256(b"public key").digest()
HEADER = 0x80 | CID << 4 | 1 << 1     # operational, nominal

def rnd(seed, n):
    return hashlib.shake_128(seed.encode()).digest(n)

def gst_bytes(t):
    return ((((t // 604800) % 4096) << 20) | (t % 604800)).to_bytes(4, "big")

T0 = WN * 604800 + TOW

def bits(b):
    return "".join(f"{x:08b}" for x in b)

def pack(s):
    s += "0" * (-len(s) % 8)
    return bytes(int(s[i:i+8], 2) for i in range(0, len(s), 8))

# keys: index n is the key of the subframe T0 + 30 n
LAST = 12
keys = {LAST: rnd("last key", 16)}
for n in range(LAST, -1, -1):
    keys[n-1] = hashlib.sha256(keys[n] + gst_bytes(T0 + 30*(n-1)) + ALPHA).digest()[:16]

def mac(key, m):
    return hmac.new(key, m, hashlib.sha256).digest()

# navigation data
TYPES = [1, 2, 3, 4, 5, 6, 10]
def word(svn, typ):
    w = bytearray(rnd(f"word {svn} {typ}", 16))
    w[0] = typ << 2 | w[0] & 3
    return bytes(w)
nav = {svn: {t: word(svn, t) for t in TYPES} for svn in (1, 2)}
def ced(svn):
    n = {t: bits(w) for t, w in nav[svn].items()}
    return n[1][6:126] + n[2][6:126] + n[3][6:128] + n[4][6:126] + n[5][6:73]
def timing(svn):
    n = {t: bits(w) for t, w in nav[svn].items()}
    return n[6][6:105] + n[10][86:128]

# DSM-KROOT, 8 blocks
params = bytes([CID << 6 | 0 << 2 | 0, 4 << 4 | 9, MACLT]) + (WN % 4096).to_bytes(2, "big") \
    + bytes([TOW // 3600]) + ALPHA
signed = bytes([HEADER]) + params + keys[-1]
sig = hashlib.sha256(PK + signed).digest() + hashlib.sha256(signed + PK).digest()
dsm = bytes([2 << 4 | PKID]) + params + keys[-1] + sig
dsm += hashlib.sha256(signed + sig).digest()[:104 - len(dsm)]
assert len(dsm) == 104
hkroots = [bytes([HEADER, 7 << 4 | i]) + dsm[13*i:13*i+13] for i in range(8)]

def tag(key, prnd, prna, t, ctr, data):
    m = (f"{prnd:08b}" if prnd else "") + f"{prna:08b}" + bits(gst_bytes(t)) + f"{ctr:08b}" + "10" + data
    return mac(key, pack(m))[:5]

def mack(svn, n, tags, cop0=1):
    """tags: (prnd, adkd, cop, nav bits) of tags 1.. ; tag 0 is for the CED of svn."""
    t = T0 + 30 * n
    out = tag(keys[n+1], None, svn, t, 1, ced(svn))
    macseq = mac(keys[n+1], bytes([svn]) + gst_bytes(t))
    out += bytes([macseq[0], macseq[1] & 0xf0 | cop0])
    for i, (prnd, adkd, cop, data) in enumerate(tags):
        key = keys[n+11] if adkd == 12 else keys[n+1]
        out += tag(key, prnd, svn, t, i + 2, data) + bytes([prnd, adkd << 4 | cop])
    out += keys[n]
    return out + bytes(60 - len(out))

mack1 = mack(1, 0, [(2, 0, 1, ced(2)), (1, 4, 1, timing(1)), (2, 0, 0, "0" * 549),
                    (1, 12, 1, ced(1)), (2, 0, 1, ced(2))])

print("public key", PK.hex())
for svn in (1, 2):
    for t in TYPES:
        print("word", svn, t, nav[svn][t].hex())
for i, h in enumerate(hkroots):
    print("hkroot", i, h.hex())
print("mack 1 at T0", mack1.hex())
print("key at T0", keys[0].hex())
print("key at T0 + 30", keys[1].hex())
print("key at T0 + 330", keys[11].hex())
