*.vo
*.vos
*.vok
*.glob
*.aux
.lia.cache
.nia.cache
.coqdeps.d
Makefile
Makefile.conf
.Makefile.d
