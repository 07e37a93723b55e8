"""Compare from_timestamp (DateModel.v), written out in Python, with datetime.fromtimestamp on random times."""
import datetime as dt, random
from fractions import Fraction as F
def model(t):
    n=int(t); fr=F(t)-n; p=float(fr*10**6); return n*10**6+round(F(p))
E0=dt.datetime(1970,1,1,tzinfo=dt.timezone.utc)
random.seed(3); bad=0
for _ in range(300000):
    t=random.choice([random.uniform(0,2.4e9),random.uniform(0,10),random.randint(0,2**32)*0.536870912,random.randint(0,10**7)/2**random.randint(0,22)])
    d=dt.datetime.fromtimestamp(t,dt.timezone.utc)-E0
    us=(d.days*86400+d.seconds)*10**6+d.microseconds
    if us!=model(t): bad+=1
print(bad)
