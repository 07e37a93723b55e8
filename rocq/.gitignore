.nra.cache
.lia.cache
.nia.cache
*.vo
*.vok
*.vos
*.glob
*.aux
.Makefile.d
Makefile
Makefile.conf
