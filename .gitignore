.nia.cache
.lia.cache
*.vo
*.vok
*.vos
*.glob
*.aux
.*.aux
Makefile*
.Makefile*
.coqdeps*
